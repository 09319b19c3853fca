(** The administrative commands of the operator's command line tool (cli/s-controller/src/subcmd). *)
From Coq Require Import ZArith List Bool.
From Verif Require Import Base State Controller Serde Client ClientSpec.
Import ListNotations.
Open Scope Z_scope.

(** Arguments as parsed; LST symbols are taken as replaced by mints and, where the tool looks them up in its file, by the
    entry's calculator or token program (lst_arg.rs:17-60, add_lst.rs:54-57, withdraw_protocol_fees.rs:82-85); defaults
    are [None]. *)
Inductive Cmd :=
| CInit (lp_mint : key)
| CSetAdmin (new_admin : key)
| CSetProtocolFee (trading lp : option Z)
| CSetBeneficiary (new_beneficiary : key)
| CSetPricing (pricing : key)
| CSetRebalanceAuth (new_authority : key)
| CAddDisableAuth (new_authority : key)
| CRemoveDisableAuth (refund : option key) (removing : key)
| CDisablePool
| CEnablePool
| CDisableInput (mint : key)
| CEnableInput (mint : key)
| CAddLst (mint calculator : key)
| CRemoveLst (refund : option key) (mint : key)
| CSetCalculator (mint calculator : key) (account_suffix : list key)
| CWithdrawFees (mint token_program : key) (withdraw_to : option key) (amount : option Z).

Section WithDerive.
Context (D : Derive) (E : Env).

(** common.rs:21-27 verify_admin, :29-38 verify_disable_pool_authority, :40-52 verify_protocol_fee_beneficiary: the tool
    exits. Every way the tool ends early is [Err Panic]. *)
Definition cli_verify (expected who : key) : res unit := guard (who =? expected) Panic (Ok tt).
Definition cli_verify_disable_authority (au : list key) (who : key) : res unit :=
  guard (existsb (fun k => k =? who) au) Panic (Ok tt).

(** init.rs:52-64: [client_initialize] with the authority given (accounts_resolvers/initialize.rs:34-60,
    resolve_for_prog) *)
Definition client_initialize_as (init_auth payer lp_mint : key) : TopIx :=
  built [sgw payer; sg init_auth; wr POOL_STATE_ID; wr lp_mint; ro SPL_TOKEN_ID; ro SYSTEM_PROGRAM_ID] Initialize.

(** An account exists. Accounts that are neither token accounts nor mints are not tokens or mints to any program here;
    the tool's lamport-holding empty accounts are not modelled. *)
Definition acc_exists (w : World) (k : key) : bool :=
  match w_tok w k, w_mint w k with None, None => false | _, _ => true end.
Definition mint_fetched (w : World) (m : key) : res unit := guard (match w_mint w m with Some _ => true | None => false end) Panic (Ok tt).

(** What the tool sends: possibly the creation of an associated token account (account, wallet, mint, token
    program), then the controller instruction. [payer]: the configured signer; [auth]: the authority signer given, or
    the payer. The chain's state [w] is fetched and then acted on; only the main program (--program default). *)
Definition plan (w : World) (payer auth : key) (c : Cmd) : res (option (key * key * key * key) * TopIx) :=
  match c with
  | CInit lp => (* init.rs:35-77 *)
      Ok (None, client_initialize_as auth payer lp)
  | CSetAdmin new => (* set_admin.rs:33-79 *)
      ps <- try_pool_state w POOL_STATE_ID ;; _ <- cli_verify (admin ps) auth ;;
      t <- client_set_admin w new POOL_STATE_ID ;; Ok (None, t)
  | CSetProtocolFee tr lp => (* set_protocol_fee.rs:46-92 *)
      ps <- try_pool_state w POOL_STATE_ID ;; _ <- cli_verify (admin ps) auth ;;
      t <- client_set_protocol_fee w POOL_STATE_ID tr lp ;; Ok (None, t)
  | CSetBeneficiary new => (* set_protocol_fee_beneficiary.rs:35-77 *)
      ps <- try_pool_state w POOL_STATE_ID ;; _ <- cli_verify (protocol_fee_beneficiary ps) auth ;;
      t <- client_set_protocol_fee_beneficiary w new POOL_STATE_ID ;; Ok (None, t)
  | CSetPricing p => (* set_pricing_prog.rs:32-74 *)
      ps <- try_pool_state w POOL_STATE_ID ;; _ <- cli_verify (admin ps) auth ;;
      t <- client_set_pricing_program w p POOL_STATE_ID ;; Ok (None, t)
  | CSetRebalanceAuth new => (* set_rebalance_auth.rs:26-80 *)
      ps <- try_pool_state w POOL_STATE_ID ;;
      t <- (if admin ps =? auth then client_set_rebalance_authority w new POOL_STATE_ID true
            else if rebalance_authority ps =? auth then client_set_rebalance_authority w new POOL_STATE_ID false
            else Err Panic) ;; Ok (None, t)
  | CAddDisableAuth new => (* add_disable_auth.rs:38-85 *)
      ps <- try_pool_state w POOL_STATE_ID ;; _ <- cli_verify (admin ps) auth ;;
      t <- client_add_disable_pool_authority w payer new POOL_STATE_ID ;; Ok (None, t)
  | CRemoveDisableAuth refund removing => (* remove_disable_auth.rs:49-113 *)
      ps <- try_pool_state w POOL_STATE_ID ;;
      au <- try_disable_pool_authority_list w DISABLE_POOL_AUTHORITY_LIST_ID ;;
      _ <- (if admin ps =? auth then Ok tt
            else (_ <- cli_verify_disable_authority au auth ;; cli_verify removing auth)) ;;
      t <- client_remove_disable_pool_authority w (match refund with Some r => r | None => payer end) auth removing
             DISABLE_POOL_AUTHORITY_LIST_ID ;; Ok (None, t)
  | CDisablePool => (* disable_pool.rs:32-78 *)
      ps <- try_pool_state w POOL_STATE_ID ;;
      _ <- (if admin ps =? auth then Ok tt
            else (au <- try_disable_pool_authority_list w DISABLE_POOL_AUTHORITY_LIST_ID ;;
                  cli_verify_disable_authority au auth)) ;;
      Ok (None, client_disable_pool auth)
  | CEnablePool => (* enable_pool.rs:23-60 *)
      ps <- try_pool_state w POOL_STATE_ID ;; _ <- cli_verify (admin ps) auth ;;
      t <- client_enable_pool w POOL_STATE_ID ;; Ok (None, t)
  | CDisableInput m => (* disable_lst_input.rs:38-90 *)
      ps <- try_pool_state w POOL_STATE_ID ;; _ <- cli_verify (admin ps) auth ;;
      t <- client_disable_lst_input w POOL_STATE_ID LST_STATE_LIST_ID m ;; Ok (None, t)
  | CEnableInput m => (* enable_lst_input.rs:34-83: the authority is not checked here *)
      t <- client_enable_lst_input w POOL_STATE_ID LST_STATE_LIST_ID m ;; Ok (None, t)
  | CAddLst m calc => (* add_lst.rs:42-101 *)
      _ <- mint_fetched w m ;;
      ps <- try_pool_state w POOL_STATE_ID ;; _ <- cli_verify (admin ps) auth ;;
      t <- client_add_lst D w payer calc POOL_STATE_ID m ;; Ok (None, t)
  | CRemoveLst refund m => (* remove_lst.rs:52-104: the authority is not checked here *)
      _ <- mint_fetched w m ;;
      t <- client_remove_lst D w (match refund with Some r => r | None => payer end) POOL_STATE_ID LST_STATE_LIST_ID m ;;
      Ok (None, t)
  | CSetCalculator m calc suffix => (* set_sol_value_calculator.rs:57-127 *)
      _ <- mint_fetched w m ;;
      ps <- try_pool_state w POOL_STATE_ID ;; _ <- cli_verify (admin ps) auth ;;
      t <- client_set_sol_value_calculator D w POOL_STATE_ID LST_STATE_LIST_ID m (ro m :: map ro suffix) calc ;; Ok (None, t)
  | CWithdrawFees m tp withdraw_to amount => (* withdraw_protocol_fees.rs:65-208 *)
      let beneficiary_ata := fst (d_find D auth tp m) in
      let payer_ata := fst (d_find D auth tp m) in (* :97-103: the wallet is the beneficiary here too *)
      let to := match withdraw_to with Some k => k | None => beneficiary_ata end in
      let f := fst (find_protocol_fee_accumulator_address D m tp) in
      ps <- try_pool_state w POOL_STATE_ID ;;
      bal <- token_account_balance w f ;;
      _ <- cli_verify (protocol_fee_beneficiary ps) auth ;;
      create <- (if acc_exists w to then Ok None
                 else if to =? beneficiary_ata then Ok (Some (beneficiary_ata, auth, m, tp))
                 else if to =? payer_ata then Ok (Some (payer_ata, payer, m, tp)) else Err Panic) ;;
      Ok (create, built (withdraw_metas ps to f tp m)
                    (WithdrawProtocolFees (match amount with Some a => a | None => bal end)))
  end.

(** The transaction is signed by the payer and the authority: they must be exactly the signers it asks for, the payer
    always being one (it pays the fee). *)
Definition signed (payer auth : key) (t : TopIx) : bool :=
  forallb (fun m => negb (is_signer m) || (mk m =? payer) || (mk m =? auth)) (ti_accs t) &&
  ((auth =? payer) || existsb (fun m => is_signer m && (mk m =? auth)) (ti_accs t)).

(** The command as a whole: plan, sign, and the transaction, all or nothing. *)
Definition command (C : Ctx) (w : World) (payer auth : key) (c : Cmd) : res World :=
  '(create, t) <- plan w payer auth c ;;
  guard (signed payer auth t) Panic (
  w1 <- match create with Some (ata, wallet, m, tp) => create_ata_account w ata wallet m tp | None => Ok w end ;;
  run D E C w1 t).

End WithDerive.
