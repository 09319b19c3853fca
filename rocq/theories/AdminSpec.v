(** Specification of the administrative instructions (C48): for each of the sixteen, who must sign, which
    accounts must be passed, in which states it is accepted, and exactly what it changes. Written from the
    program's documentation of each instruction; it uses no processor, resolver or field-update function of
    the model. *)
From Coq Require Import ZArith List Bool.
From Verif Require Import Base State Controller Spec.
Import ListNotations.
Open Scope Z_scope.

(* ------------------------------------------------------------------ *)
(** * What a call passes *)

(** An account the instruction asks for: which one, whether it must sign, whether it must be writable. *)
Record Ask := mkAsk { ask_key : key; ask_signs : bool; ask_writes : bool }.
Definition reads (k : key) : Ask := mkAsk k false false.
Definition writes (k : key) : Ask := mkAsk k false true.
Definition signs (k : key) : Ask := mkAsk k true false.
Definition pays (k : key) : Ask := mkAsk k true true.

Definition meets (m : Meta) (a : Ask) : Prop :=
  mk m = ask_key a /\ (ask_signs a = true -> is_signer m = true) /\ (ask_writes a = true -> is_writable m = true).
(** The call starts with the accounts asked for, in order; [more] is whatever follows. *)
Definition passes (accs : list Meta) (asked : list Ask) (more : list Meta) : Prop :=
  exists used, accs = used ++ more /\ Forall2 meets used asked.

(* ------------------------------------------------------------------ *)
(** * What a call changes *)
Record Change := mkChange {
  ch_pool : option PoolState;                (* the pool state becomes this *)
  ch_list : option (list LstState);          (* the LST list becomes this *)
  ch_auth : option (list key);               (* the disable-pool authorities become these *)
  ch_tok : list (key * option TokAcct);      (* these token accounts become this (None: closed) *)
  ch_mint : list (key * option MintAcct);
  ch_owner : list (key * key) }.             (* these accounts' owning programs become these *)
Definition nothing : Change := mkChange None None None [] [] [].
Definition pool_becomes (ps : PoolState) : Change := mkChange (Some ps) None None [] [] [].
Definition list_becomes (l : list LstState) : Change := mkChange None (Some l) None [] [] [].
Definition authorities_become (l : list key) : Change := mkChange None None (Some l) [] [] [].

Definition over {A} (l : list (key * A)) (f : key -> A) (k : key) : A :=
  match find (fun p => fst p =? k) l with Some p => snd p | None => f k end.

(** [applied w c w']: [w'] is [w] with [c] applied, and is otherwise, at every address, the same. *)
Record applied (w : World) (c : Change) (w' : World) : Prop := {
  ap_pool : the_pool w' = match ch_pool c with Some x => Some x | None => the_pool w end;
  ap_list : the_list w' = match ch_list c with Some x => Some x | None => the_list w end;
  ap_auth : the_authorities w' = match ch_auth c with Some x => Some x | None => the_authorities w end;
  ap_pool_else : forall k, k <> POOL_STATE_ID -> w_pool w' k = w_pool w k;
  ap_list_else : forall k, k <> LST_STATE_LIST_ID -> w_list w' k = w_list w k;
  ap_auth_else : forall k, k <> DISABLE_POOL_AUTHORITY_LIST_ID -> w_auth w' k = w_auth w k;
  ap_tok : forall k, w_tok w' k = over (ch_tok c) (w_tok w) k;
  ap_mint : forall k, w_mint w' k = over (ch_mint c) (w_mint w) k;
  ap_owner : forall k, w_owner w' k = over (ch_owner c) (w_owner w) k;
  ap_rec : w_rec w' = w_rec w;
  ap_exec : w_exec w' = w_exec w }.

(* ------------------------------------------------------------------ *)
(** * The rules *)

Definition running (ps : PoolState) : Prop := is_rebalancing ps = 0 /\ is_disabled ps = 0.

(** The pool's reserves and the protocol fee accumulator of a mint: the associated token accounts of the
    pool state and of the protocol-fee PDA. *)
Definition reserves_key (D : Derive) (w : World) (m : key) : key := fst (d_find D POOL_STATE_ID (w_owner w m) m).
Definition accumulator_key (D : Derive) (w : World) (m : key) : key := fst (d_find D PROTOCOL_FEE_ID (w_owner w m) m).

(** Accounts AddLst creates: those that do not exist yet. *)
Definition created (w : World) (k m wallet : key) : list (key * option TokAcct) :=
  match w_tok w k with None => [(k, Some (mkTok m wallet 0))] | Some _ => [] end.
Definition created_owner (w : World) (k prog : key) : list (key * key) :=
  match w_tok w k with None => [(k, prog)] | Some _ => [] end.

Definition is_admin_ix (ix : Ix) : bool :=
  match ix with
  | DisableLstInput _ | EnableLstInput _ | AddLst | RemoveLst _ | SetSolValueCalculator _ | SetAdmin
  | SetProtocolFee _ _ | SetProtocolFeeBeneficiary | SetPricingProgram | WithdrawProtocolFees _
  | AddDisablePoolAuthority | RemoveDisablePoolAuthority _ | DisablePool | EnablePool
  | SetRebalanceAuthority | Initialize => true
  | SyncSolValue _ | SwapExactIn _ | SwapExactOut _ | AddLiquidity _ | RemoveLiquidity _
  | StartRebalance _ | EndRebalance => false
  end.

(** [admin_rule D E w ix asked more ch]: in [w], the call [ix] passing the accounts [asked] and after them
    [more] is permitted, and changes [ch]. *)
Inductive admin_rule (D : Derive) (E : Env) (w : World) : Ix -> list Ask -> list Meta -> Change -> Prop :=

(** The admin hands over to anybody, in any state. *)
| may_set_admin ps new more :
    the_pool w = Some ps ->
    admin_rule D E w SetAdmin [signs (admin ps); reads new; writes POOL_STATE_ID] more
      (pool_becomes (mkPool (total_sol_value ps) (trading_protocol_fee_bps ps) (lp_protocol_fee_bps ps)
         (version ps) (is_disabled ps) (is_rebalancing ps) new (rebalance_authority ps)
         (protocol_fee_beneficiary ps) (pricing_program ps) (lp_token_mint ps)))

(** The admin sets either fee, or both, to at most 10000 bps. *)
| may_set_fee ps t l more :
    the_pool w = Some ps -> running ps ->
    (forall x, t = Some x -> x <= 10000) -> (forall x, l = Some x -> x <= 10000) ->
    admin_rule D E w (SetProtocolFee t l) [signs (admin ps); writes POOL_STATE_ID] more
      (pool_becomes (mkPool (total_sol_value ps)
         (match t with Some x => x | None => trading_protocol_fee_bps ps end)
         (match l with Some x => x | None => lp_protocol_fee_bps ps end)
         (version ps) (is_disabled ps) (is_rebalancing ps) (admin ps) (rebalance_authority ps)
         (protocol_fee_beneficiary ps) (pricing_program ps) (lp_token_mint ps)))

(** The beneficiary (not the admin) hands over the fees. *)
| may_set_beneficiary ps new more :
    the_pool w = Some ps -> running ps ->
    admin_rule D E w SetProtocolFeeBeneficiary
      [signs (protocol_fee_beneficiary ps); reads new; writes POOL_STATE_ID] more
      (pool_becomes (mkPool (total_sol_value ps) (trading_protocol_fee_bps ps) (lp_protocol_fee_bps ps)
         (version ps) (is_disabled ps) (is_rebalancing ps) (admin ps) (rebalance_authority ps)
         new (pricing_program ps) (lp_token_mint ps)))

(** The admin replaces the pricing program by an executable account. *)
| may_set_pricing ps new more :
    the_pool w = Some ps -> running ps -> w_exec w new = true ->
    admin_rule D E w SetPricingProgram [signs (admin ps); reads new; writes POOL_STATE_ID] more
      (pool_becomes (mkPool (total_sol_value ps) (trading_protocol_fee_bps ps) (lp_protocol_fee_bps ps)
         (version ps) (is_disabled ps) (is_rebalancing ps) (admin ps) (rebalance_authority ps)
         (protocol_fee_beneficiary ps) new (lp_token_mint ps)))

(** The admin or the rebalance authority itself replaces the rebalance authority. *)
| may_set_rebalance_authority ps who new more :
    the_pool w = Some ps -> running ps -> who = admin ps \/ who = rebalance_authority ps ->
    admin_rule D E w SetRebalanceAuthority [signs who; reads new; writes POOL_STATE_ID] more
      (pool_becomes (mkPool (total_sol_value ps) (trading_protocol_fee_bps ps) (lp_protocol_fee_bps ps)
         (version ps) (is_disabled ps) (is_rebalancing ps) (admin ps) new
         (protocol_fee_beneficiary ps) (pricing_program ps) (lp_token_mint ps)))

(** The admin adds a disable-pool authority not on the list yet, in any state; anybody pays. *)
| may_add_authority ps payer new au more :
    the_pool w = Some ps -> the_authorities w = Some au -> ~ In new au ->
    admin_rule D E w AddDisablePoolAuthority
      [pays payer; signs (admin ps); reads POOL_STATE_ID; reads new; writes DISABLE_POOL_AUTHORITY_LIST_ID;
       reads SYSTEM_PROGRAM_ID] more
      (authorities_become (au ++ [new]))

(** The admin, or the authority itself, takes an authority off the list, in any state. *)
| may_remove_authority ps i refund who it before after more :
    the_pool w = Some ps -> the_authorities w = Some (before ++ it :: after) ->
    Z.of_nat (length before) = i -> who = admin ps \/ who = it ->
    admin_rule D E w (RemoveDisablePoolAuthority i)
      [writes refund; signs who; reads it; reads POOL_STATE_ID; writes DISABLE_POOL_AUTHORITY_LIST_ID] more
      (authorities_become (before ++ after))

(** The admin or any listed authority disables a running pool. *)
| may_disable ps who au more :
    the_pool w = Some ps -> running ps -> the_authorities w = Some au -> who = admin ps \/ In who au ->
    admin_rule D E w DisablePool [signs who; writes POOL_STATE_ID; reads DISABLE_POOL_AUTHORITY_LIST_ID] more
      (pool_becomes (mkPool (total_sol_value ps) (trading_protocol_fee_bps ps) (lp_protocol_fee_bps ps)
         (version ps) 1 (is_rebalancing ps) (admin ps) (rebalance_authority ps)
         (protocol_fee_beneficiary ps) (pricing_program ps) (lp_token_mint ps)))

(** Only the admin enables a disabled pool. *)
| may_enable ps more :
    the_pool w = Some ps -> is_disabled ps <> 0 ->
    admin_rule D E w EnablePool [signs (admin ps); writes POOL_STATE_ID] more
      (pool_becomes (mkPool (total_sol_value ps) (trading_protocol_fee_bps ps) (lp_protocol_fee_bps ps)
         (version ps) 0 (is_rebalancing ps) (admin ps) (rebalance_authority ps)
         (protocol_fee_beneficiary ps) (pricing_program ps) (lp_token_mint ps)))

(** The admin switches an LST's input off, and on. *)
| may_disable_input ps i before ls after more :
    the_pool w = Some ps -> running ps -> the_list w = Some (before ++ ls :: after) ->
    Z.of_nat (length before) = i ->
    admin_rule D E w (DisableLstInput i)
      [signs (admin ps); reads (ls_mint ls); writes POOL_STATE_ID; writes LST_STATE_LIST_ID] more
      (list_becomes (before ++ mkLst 1 (pool_reserves_bump ls) (protocol_fee_accumulator_bump ls)
         (sol_value ls) (ls_mint ls) (sol_value_calculator ls) :: after))
| may_enable_input ps i before ls after more :
    the_pool w = Some ps -> running ps -> the_list w = Some (before ++ ls :: after) ->
    Z.of_nat (length before) = i ->
    admin_rule D E w (EnableLstInput i)
      [signs (admin ps); reads (ls_mint ls); writes POOL_STATE_ID; writes LST_STATE_LIST_ID] more
      (list_becomes (before ++ mkLst 0 (pool_reserves_bump ls) (protocol_fee_accumulator_bump ls)
         (sol_value ls) (ls_mint ls) (sol_value_calculator ls) :: after))

(** The admin lists a mint of either token program that is not listed yet, with an executable calculator.
    It starts with its input enabled and worth nothing, at the end of the list; the two token accounts are
    created unless they exist already. *)
| may_add_lst ps l m calc payer mi more :
    the_pool w = Some ps -> running ps -> the_list w = Some l -> ~ In m (map ls_mint l) ->
    w_owner w m = SPL_TOKEN_ID \/ w_owner w m = SPL_TOKEN_2022_ID -> w_mint w m = Some mi ->
    w_exec w calc = true ->
    admin_rule D E w AddLst
      [signs (admin ps); pays payer; reads m; writes (reserves_key D w m); writes (accumulator_key D w m);
       writes PROTOCOL_FEE_ID; reads calc; reads POOL_STATE_ID; writes LST_STATE_LIST_ID; reads ATA_PROGRAM_ID;
       reads SYSTEM_PROGRAM_ID; reads (w_owner w m)] more
      (mkChange None
         (Some (l ++ [mkLst 0 (snd (d_find D POOL_STATE_ID (w_owner w m) m))
                        (snd (d_find D PROTOCOL_FEE_ID (w_owner w m) m)) 0 m calc]))
         None
         (created w (reserves_key D w m) m POOL_STATE_ID ++ created w (accumulator_key D w m) m PROTOCOL_FEE_ID)
         []
         (created_owner w (reserves_key D w m) (w_owner w m) ++
          created_owner w (accumulator_key D w m) (w_owner w m)))

(** The admin unlists an LST recorded as worth nothing and holding nothing; both accounts are closed. *)
| may_remove_lst ps i before ls after refund more :
    the_pool w = Some ps -> running ps -> the_list w = Some (before ++ ls :: after) ->
    Z.of_nat (length before) = i -> sol_value ls = 0 ->
    balance w (reserves_key D w (ls_mint ls)) = 0 -> balance w (accumulator_key D w (ls_mint ls)) = 0 ->
    admin_rule D E w (RemoveLst i)
      [signs (admin ps); writes refund; reads (ls_mint ls); writes (reserves_key D w (ls_mint ls));
       writes (accumulator_key D w (ls_mint ls)); writes PROTOCOL_FEE_ID; reads POOL_STATE_ID;
       writes LST_STATE_LIST_ID; reads (w_owner w (ls_mint ls))] more
      (mkChange None (Some (before ++ after)) None
         [(reserves_key D w (ls_mint ls), None); (accumulator_key D w (ls_mint ls), None)] []
         [(reserves_key D w (ls_mint ls), SYSTEM_PROGRAM_ID);
          (accumulator_key D w (ls_mint ls), SYSTEM_PROGRAM_ID)])

(** The admin gives an LST a new, executable calculator, which, asked with the remaining accounts once it is
    recorded, must value the reserves at a figure [v] that keeps the total in 64 bits; the entry and the total
    are updated with it. *)
| may_set_calculator ps i before ls after calc v hi more :
    the_pool w = Some ps -> running ps -> the_list w = Some (before ++ ls :: after) ->
    Z.of_nat (length before) = i -> w_exec w calc = true ->
    e_lst_to_sol E
      (put_list w LST_STATE_LIST_ID (Some (before ++ mkLst (is_input_disabled ls) (pool_reserves_bump ls)
         (protocol_fee_accumulator_bump ls) (sol_value ls) (ls_mint ls) calc :: after)))
      calc (ls_mint ls) more (balance w (reserves_key D w (ls_mint ls))) = Ok (v, hi) ->
    0 <= v <= U64_MAX -> 0 <= hi <= U64_MAX -> total_sol_value ps - sol_value ls + v <= U64_MAX ->
    admin_rule D E w (SetSolValueCalculator i)
      [signs (admin ps); reads (ls_mint ls); writes POOL_STATE_ID; reads (reserves_key D w (ls_mint ls));
       writes LST_STATE_LIST_ID; reads calc] more
      (mkChange
         (Some (mkPool (total_sol_value ps - sol_value ls + v) (trading_protocol_fee_bps ps)
            (lp_protocol_fee_bps ps) (version ps) (is_disabled ps) (is_rebalancing ps) (admin ps)
            (rebalance_authority ps) (protocol_fee_beneficiary ps) (pricing_program ps) (lp_token_mint ps)))
         (Some (before ++ mkLst (is_input_disabled ls) (pool_reserves_bump ls)
            (protocol_fee_accumulator_bump ls) v (ls_mint ls) calc :: after))
         None [] [] [])

(** The beneficiary moves up to the whole balance of the fee accumulator of a mint to any token account [to]
    of that mint. *)
| may_withdraw ps to t f tf mi amount more :
    the_pool w = Some ps -> running ps ->
    w_tok w to = Some t -> w_owner w (ta_mint t) = w_owner w to ->
    w_owner w to = SPL_TOKEN_ID \/ w_owner w to = SPL_TOKEN_2022_ID -> w_mint w (ta_mint t) = Some mi ->
    f = accumulator_key D w (ta_mint t) -> w_tok w f = Some tf -> amount <= ta_amount tf ->
    (f = to \/ ta_amount t + amount <= U64_MAX) ->
    admin_rule D E w (WithdrawProtocolFees amount)
      [signs (protocol_fee_beneficiary ps); writes to; writes f; writes PROTOCOL_FEE_ID; reads (w_owner w to);
       writes POOL_STATE_ID; reads (ta_mint t)] more
      (mkChange None None None
         (if f =? to then []
          else [(f, Some (mkTok (ta_mint t) PROTOCOL_FEE_ID (ta_amount tf - amount)));
                (to, Some (mkTok (ta_mint t) (ta_owner t) (ta_amount t + amount)))]) [] [])

(** The initial authority creates the pool, once, around an empty 9-decimal mint of the original token program
    whose mint and freeze authorities it holds; the pool takes over both. *)
| may_initialize payer lp m more :
    the_pool w = None -> w_owner w lp = SPL_TOKEN_ID -> w_mint w lp = Some m -> m_supply m = 0 ->
    m_decimals m = 9 -> m_auth m = Some INITIAL_AUTHORITY_ID -> m_freeze m = Some INITIAL_AUTHORITY_ID ->
    admin_rule D E w Initialize
      [pays payer; signs INITIAL_AUTHORITY_ID; writes POOL_STATE_ID; writes lp; reads SPL_TOKEN_ID;
       reads SYSTEM_PROGRAM_ID] more
      (mkChange
         (Some (mkPool 0 1000 1000 1 0 0 INITIAL_AUTHORITY_ID INITIAL_AUTHORITY_ID INITIAL_AUTHORITY_ID
                  DEFAULT_PRICING_PROGRAM lp))
         None None [] [(lp, Some (mkMint 0 9 (Some POOL_STATE_ID) (Some POOL_STATE_ID)))] []).
