(** Specification vocabulary for instructions that are carried out later than they were built (C57). *)
From Coq Require Import ZArith List Bool.
From Verif Require Import Base State Controller Spec Serde Client ClientSpec CliAdmin.
Import ListNotations.
Open Scope Z_scope.

(** What a caller asks a client library for (the builders of Client.v; EndRebalance is built from the StartRebalance
    instruction and reads nothing else). *)
Inductive Request :=
| QSync (mint : key) (calc_accs : list Meta)
| QSwapExactIn (signer src_acc dst_acc src_mint dst_mint : key) (min_out amount : Z) (src_accs dst_accs price_accs : list Meta)
    (price_prog : key)
| QSwapExactOut (signer src_acc dst_acc src_mint dst_mint : key) (max_in amount : Z) (src_accs dst_accs price_accs : list Meta)
    (price_prog : key)
| QAddLiquidity (signer lst_acc lp_acc mint : key) (amount min_out : Z) (calc_accs price_accs : list Meta)
| QRemoveLiquidity (signer lst_acc lp_acc mint : key) (amount min_out : Z) (calc_accs price_accs : list Meta)
| QDisableInput (mint : key)
| QEnableInput (mint : key)
| QAddLst (payer calculator mint : key)
| QRemoveLst (refund mint : key)
| QSetCalculator (mint : key) (calc_accs : list Meta) (calculator : key)
| QSetAdmin (new : key)
| QSetProtocolFee (trading lp : option Z)
| QSetBeneficiary (new : key)
| QSetPricing (new : key)
| QWithdrawFees (to : key) (amount : Z)
| QWithdrawFeesOf (to mint : key) (amount : Z)
| QAddAuthority (payer new : key)
| QRemoveAuthority (refund signer authority : key)
| QDisablePool (signer : key)
| QEnablePool
| QSetRebalanceAuthority (new : key) (by_admin : bool)
| QInitialize (payer lp_mint : key)
| QStartRebalance (to src_mint dst_mint : key) (amount min_src max_dst : Z) (src_accs dst_accs : list Meta).

(** The instruction the library makes of it from the accounts it has fetched ([V]). *)
Definition build (D : Derive) (V : World) (q : Request) : res TopIx :=
  match q with
  | QSync m ca => client_sync D V LST_STATE_LIST_ID m ca
  | QSwapExactIn s sa da sm dm mo a xs xd xp pp => client_swap_exact_in D V s sa da sm dm LST_STATE_LIST_ID mo a xs xd xp pp
  | QSwapExactOut s sa da sm dm mi a xs xd xp pp => client_swap_exact_out D V s sa da sm dm LST_STATE_LIST_ID mi a xs xd xp pp
  | QAddLiquidity s la lp m a mo ca pa => client_add_liquidity D V s la lp POOL_STATE_ID LST_STATE_LIST_ID m a mo ca pa
  | QRemoveLiquidity s la lp m a mo ca pa => client_remove_liquidity D V s la lp POOL_STATE_ID LST_STATE_LIST_ID m a mo ca pa
  | QDisableInput m => client_disable_lst_input V POOL_STATE_ID LST_STATE_LIST_ID m
  | QEnableInput m => client_enable_lst_input V POOL_STATE_ID LST_STATE_LIST_ID m
  | QAddLst p c m => client_add_lst D V p c POOL_STATE_ID m
  | QRemoveLst r m => client_remove_lst D V r POOL_STATE_ID LST_STATE_LIST_ID m
  | QSetCalculator m ca c => client_set_sol_value_calculator D V POOL_STATE_ID LST_STATE_LIST_ID m ca c
  | QSetAdmin n => client_set_admin V n POOL_STATE_ID
  | QSetProtocolFee t l => client_set_protocol_fee V POOL_STATE_ID t l
  | QSetBeneficiary n => client_set_protocol_fee_beneficiary V n POOL_STATE_ID
  | QSetPricing n => client_set_pricing_program V n POOL_STATE_ID
  | QWithdrawFees to a => client_withdraw_protocol_fees D V POOL_STATE_ID to a
  | QWithdrawFeesOf to m a => client_withdraw_protocol_fees_by_mint D V POOL_STATE_ID to m a
  | QAddAuthority p n => client_add_disable_pool_authority V p n POOL_STATE_ID
  | QRemoveAuthority r s a => client_remove_disable_pool_authority V r s a DISABLE_POOL_AUTHORITY_LIST_ID
  | QDisablePool s => Ok (client_disable_pool s)
  | QEnablePool => client_enable_pool V POOL_STATE_ID
  | QSetRebalanceAuthority n b => client_set_rebalance_authority V n POOL_STATE_ID b
  | QInitialize p lp => Ok (client_initialize p lp)
  | QStartRebalance to sm dm a ms md xs xd => client_start_rebalance D V to LST_STATE_LIST_ID POOL_STATE_ID sm dm a ms md xs xd
  end.

(** Numbers are of their Rust types (u64; fees u16). *)
Definition request_typed (q : Request) : Prop :=
  match q with
  | QSwapExactIn _ _ _ _ _ x y _ _ _ _ | QSwapExactOut _ _ _ _ _ x y _ _ _ _
  | QAddLiquidity _ _ _ _ x y _ _ | QRemoveLiquidity _ _ _ _ x y _ _ => U64 x /\ U64 y
  | QStartRebalance _ _ _ x y z _ _ => U64 x /\ U64 y /\ U64 z
  | QWithdrawFees _ x | QWithdrawFeesOf _ _ x => U64 x
  | QSetProtocolFee t l => (forall x, t = Some x -> 0 <= x <= 65535) /\ (forall x, l = Some x -> 0 <= x <= 65535)
  | _ => True
  end.

(** The rebalance authority's successor may be named by either of two signers; the program does not ask as which. *)
Definition other_capacity (q : Request) : Request :=
  match q with QSetRebalanceAuthority n b => QSetRebalanceAuthority n (negb b) | _ => q end.

(** The operator's tool plans a command from the state [w0] it fetched; the transaction is carried out in [w].
    The creation of an associated account fails if anything is at its address
    (withdraw_protocol_fees.rs:88-104; the associated token program creates the account through the system program). *)
Definition late_command (D : Derive) (E : Env) (C : Ctx) (w0 w : World) (payer auth : key) (c : Cmd) : res World :=
  '(create, t) <- plan D w0 payer auth c ;;
  guard (signed payer auth t) Panic (
  w1 <- match create with
        | Some (ata, wallet, m, tp) => guard (negb (acc_exists w ata)) SystemErr (create_ata_account w ata wallet m tp)
        | None => Ok w end ;;
  run D E C w1 t).
(** What the operator typed, with "all" replaced by the amount the tool read. *)
Definition as_read (D : Derive) (w0 : World) (c : Cmd) : Cmd :=
  match c with
  | CWithdrawFees m tp to None => CWithdrawFees m tp to (Some (balance w0 (fst (d_find D PROTOCOL_FEE_ID tp m))))
  | _ => c
  end.
