(** Specification vocabulary used in the property theorems: histories, what other programs may do,
    and the plain-English predicates. Nothing here mentions the proofs. *)
From Coq Require Import ZArith List Bool.
From Verif Require Import Base Ratio Calc State Controller.
Import ListNotations.
Open Scope Z_scope.

(* ------------------------------------------------------------------ *)
(** * The controller's canonical accounts *)
Definition the_pool (w : World) : option PoolState := w_pool w POOL_STATE_ID.
Definition the_list (w : World) : option (list LstState) := w_list w LST_STATE_LIST_ID.
Definition the_authorities (w : World) : option (list key) :=
  w_auth w DISABLE_POOL_AUTHORITY_LIST_ID.
Definition the_record (w : World) : option RebalanceRecord := w_rec w REBALANCE_RECORD_ID.

Definition pool_is_rebalancing (w : World) : Prop :=
  exists ps, the_pool w = Some ps /\ is_rebalancing ps <> 0.
Definition pool_is_disabled (w : World) : Prop :=
  exists ps, the_pool w = Some ps /\ is_disabled ps <> 0.

(** Balance of a token account (0 when it does not exist). *)
Definition balance (w : World) (k : key) : Z :=
  match w_tok w k with Some t => ta_amount t | None => 0 end.
Definition supply (w : World) (m : key) : Z :=
  match w_mint w m with Some i => m_supply i | None => 0 end.
(** Total held by the accounts [ks] of tokens of mint [m]. *)
Definition balance_of_mint (w : World) (m k : key) : Z :=
  match w_tok w k with Some t => if ta_mint t =? m then ta_amount t else 0 | None => 0 end.
Definition holdings (w : World) (m : key) (ks : list key) : Z :=
  sumZ (map (balance_of_mint w m) ks).
(** No set of accounts holds more of a mint than its supply (true of any token). *)
Definition supply_sound (w : World) (m : key) : Prop := forall ks, NoDup ks -> holdings w m ks <= supply w m.

(** Every token amount and every supply is a u64. *)
Definition tokens_u64 (w : World) : Prop :=
  (forall k t, w_tok w k = Some t -> U64 (ta_amount t)) /\
  (forall m i, w_mint w m = Some i -> U64 (m_supply i)).

(* ------------------------------------------------------------------ *)
(** * Histories *)

(** The associated-token-account program is the only program that can create accounts at the
    addresses it derives, and it creates there a token account of the mint, token program and wallet
    the address was derived from. Nobody but the controller can re-assign those derived from one of the
    controller's PDAs. [ata_ok D w]: [w] respects this. *)
Definition ata_ok (D : Derive) (w : World) : Prop :=
  forall wallet prog mint bump k,
    wallet = POOL_STATE_ID \/ wallet = PROTOCOL_FEE_ID ->
    d_create D wallet prog mint bump = Some k ->
    w_mint w k = None /\
    (forall t, w_tok w k = Some t ->
       ta_mint t = mint /\ ta_owner t = wallet /\ w_owner w k = prog).

(** Before the program's first use: no pool, no rebalance record, empty lists. *)
Definition genesis (D : Derive) (w : World) : Prop :=
  the_pool w = None /\ the_list w = Some [] /\ the_authorities w = Some [] /\
  the_record w = None /\ tokens_u64 w /\ ata_ok D w.

(** What instructions of other programs may do between controller instructions: anything except
    writing accounts the controller owns, taking tokens out of (or re-assigning or closing) token
    accounts owned by the controller's PDAs, minting LP tokens / changing the authority of mints
    controlled by the pool, closing a mint or changing its owning program, or breaking [ata_ok]. These
    are the Solana runtime's, the token program's and the associated-token-account program's rules
    (Token-2022's optional mint-close extension is assumed absent). *)
Record external_step (D : Derive) (w w' : World) : Prop := {
  x_pool : the_pool w' = the_pool w;
  x_list : the_list w' = the_list w;
  x_auth : the_authorities w' = the_authorities w;
  x_rec  : the_record w' = the_record w;
  x_tok  : forall k t, w_tok w k = Some t ->
             ta_owner t = POOL_STATE_ID \/ ta_owner t = PROTOCOL_FEE_ID ->
             exists t', w_tok w' k = Some t' /\ ta_mint t' = ta_mint t /\ ta_owner t' = ta_owner t /\
                        ta_amount t <= ta_amount t' /\ w_owner w' k = w_owner w k;
  x_mint : forall m i, w_mint w m = Some i ->
             w_owner w' m = w_owner w m /\
             exists i', w_mint w' m = Some i' /\
               (m_auth i = Some POOL_STATE_ID ->
                m_auth i' = Some POOL_STATE_ID /\ m_supply i' <= m_supply i);
  x_u64  : tokens_u64 w';
  x_ata  : ata_ok D w'
}.

(** The controller's PDAs have no private key: no account list presented to the program marks one of
    them as a signer. *)
Definition pdas_do_not_sign (accs : list Meta) : Prop :=
  forall a, In a accs -> is_signer a = true -> ~ In (mk a) controller_pdas.

(** One step of the chain as the pool sees it. *)
Inductive step (D : Derive) (w w' : World) : Prop :=
| step_external : external_step D w w' -> step D w w'
| step_controller E C accs ix :
    pdas_do_not_sign accs -> process D E C w accs ix = Ok w' -> step D w w'.

Inductive steps (D : Derive) : World -> World -> Prop :=
| steps_refl w : steps D w w
| steps_cons w1 w2 w3 : steps D w1 w2 -> step D w2 w3 -> steps D w1 w3.

(** Worlds reachable from genesis. *)
Definition reachable (D : Derive) (w : World) : Prop := exists w0, genesis D w0 /\ steps D w0 w.

(* ------------------------------------------------------------------ *)
(** * Measuring a reserve *)

(** [revalued E w i reserves calc mint accs w']: the calculator [calc], asked for the value of the
    current balance of [reserves], answered [v]; [w'] is [w] with entry [i] of the list recorded as
    worth [v] and the pool total adjusted by the difference, and nothing else changed. *)
Definition revalued (E : Env) (w : World) (i : Z) (reserves calc mint : key) (accs : list Meta)
  (w' : World) : Prop :=
  exists v hi ps l ls,
    w_tok w reserves <> None /\
    e_lst_to_sol E w calc mint accs (balance w reserves) = Ok (v, hi) /\
    the_pool w = Some ps /\ the_list w = Some l /\ nth_error l (Z.to_nat i) = Some ls /\
    the_pool w' = Some (set_total ps (total_sol_value ps - sol_value ls + v)) /\
    the_list w' = Some (replace_nth l (Z.to_nat i) (set_sol_value ls v)) /\
    the_authorities w' = the_authorities w /\ the_record w' = the_record w /\
    w_tok w' = w_tok w /\ w_mint w' = w_mint w /\ w_owner w' = w_owner w /\ w_exec w' = w_exec w.

(** The controller's accounts are the same in both worlds. *)
Definition same_controller_accounts (w w' : World) : Prop :=
  the_pool w' = the_pool w /\ the_list w' = the_list w /\
  the_authorities w' = the_authorities w /\ the_record w' = the_record w.
Definition same_tokens (w w' : World) : Prop := w_tok w' = w_tok w /\ w_mint w' = w_mint w.

(** [signed_by accs k]: the call carries a signature of [k]. *)
Definition signed_by (accs : list Meta) (k : key) : Prop :=
  exists a, In a accs /\ is_signer a = true /\ mk a = k.
Definition passed_writable (accs : list Meta) (k : key) : Prop :=
  exists a, In a accs /\ is_writable a = true /\ mk a = k.

(** What the LST list says apart from the recorded SOL values: mint, calculator, input flag, bumps. *)
Definition listing (ls : LstState) : key * key * Z * Z * Z :=
  (ls_mint ls, sol_value_calculator ls, is_input_disabled ls, pool_reserves_bump ls,
   protocol_fee_accumulator_bump ls).

(** [steps_within D P w w']: a history from [w] to [w'] all of whose states, both ends included,
    satisfy [P]. *)
Inductive steps_within (D : Derive) (P : World -> Prop) : World -> World -> Prop :=
| within_refl w : P w -> steps_within D P w w
| within_cons w1 w2 w3 : steps_within D P w1 w2 -> step D w2 w3 -> P w3 -> steps_within D P w1 w3.

(** The transaction [C] has, after the running instruction, a top-level instruction of the controller
    with EndRebalance data (first byte 20) whose fifth account is [mint]. *)
Definition end_scheduled (C : Ctx) (mint : key) : Prop :=
  exists n ix data m, (cx_cur C < n)%nat /\ nth_error (cx_ixs C) n = Some ix /\
    ti_prog ix = S_CONTROLLER_ID /\ ti_data ix = 20 :: data /\
    nth_error (ti_accs ix) 4 = Some m /\ mk m = mint.

(** Which account positions of each instruction must hold which controller account
    (generated/s_controller_interface/src/instructions.rs, the [*Accounts] structs). *)
Definition canonical_positions (ix : Ix) : list (nat * key) :=
  match ix with
  | SyncSolValue _ => [(1, POOL_STATE_ID); (2, LST_STATE_LIST_ID)]
  | SwapExactIn _ | SwapExactOut _ | AddLiquidity _ | RemoveLiquidity _ =>
      [(8, POOL_STATE_ID); (9, LST_STATE_LIST_ID)]
  | DisableLstInput _ | EnableLstInput _ => [(2, POOL_STATE_ID); (3, LST_STATE_LIST_ID)]
  | AddLst => [(5, PROTOCOL_FEE_ID); (7, POOL_STATE_ID); (8, LST_STATE_LIST_ID)]
  | RemoveLst _ => [(5, PROTOCOL_FEE_ID); (6, POOL_STATE_ID); (7, LST_STATE_LIST_ID)]
  | SetSolValueCalculator _ => [(2, POOL_STATE_ID); (4, LST_STATE_LIST_ID)]
  | SetAdmin | SetProtocolFeeBeneficiary | SetPricingProgram | SetRebalanceAuthority | Initialize =>
      [(2, POOL_STATE_ID)]
  | SetProtocolFee _ _ | EnablePool => [(1, POOL_STATE_ID)]
  | WithdrawProtocolFees _ => [(3, PROTOCOL_FEE_ID); (5, POOL_STATE_ID)]
  | AddDisablePoolAuthority => [(2, POOL_STATE_ID); (4, DISABLE_POOL_AUTHORITY_LIST_ID)]
  | RemoveDisablePoolAuthority _ => [(3, POOL_STATE_ID); (4, DISABLE_POOL_AUTHORITY_LIST_ID)]
  | DisablePool => [(1, POOL_STATE_ID); (2, DISABLE_POOL_AUTHORITY_LIST_ID)]
  | StartRebalance _ | EndRebalance =>
      [(1, POOL_STATE_ID); (2, LST_STATE_LIST_ID); (3, REBALANCE_RECORD_ID)]
  end%nat.

(** (list index, position of the mint account, position of the reserves account). For EndRebalance the
    list index is the one in the rebalance record. *)
Definition reserve_positions (w : World) (ix : Ix) : list (Z * nat * nat) :=
  match ix with
  | SyncSolValue i => [(i, 0, 3)]
  | SwapExactIn a => [(si_src_lst_index a, 1, 10); (si_dst_lst_index a, 2, 11)]
  | SwapExactOut a => [(so_src_lst_index a, 1, 10); (so_dst_lst_index a, 2, 11)]
  | AddLiquidity a => [(al_lst_index a, 1, 10)]
  | RemoveLiquidity a => [(rl_lst_index a, 1, 10)]
  | RemoveLst i => [(i, 2, 3)]
  | SetSolValueCalculator i => [(i, 1, 3)]
  | StartRebalance a => [(sr_src_lst_index a, 4, 6); (sr_dst_lst_index a, 5, 7)]
  | EndRebalance => match the_record w with Some r => [(dst_lst_index r, 4, 5)] | None => [] end
  | _ => []
  end%nat.
(** The same for the protocol fee accumulator account. *)
Definition accumulator_positions (ix : Ix) : list (Z * nat * nat) :=
  match ix with
  | SwapExactIn a => [(si_dst_lst_index a, 2, 5)]
  | SwapExactOut a => [(so_dst_lst_index a, 2, 5)]
  | AddLiquidity a => [(al_lst_index a, 1, 5)]
  | RemoveLiquidity a => [(rl_lst_index a, 1, 5)]
  | RemoveLst i => [(i, 2, 4)]
  | _ => []
  end%nat.

(* ------------------------------------------------------------------ *)
(** * Reading a call's accounts and following the money *)

(** The key passed at position [n] (0 when the list is too short, which no successful call has). *)
Definition key_at (accs : list Meta) (n : nat) : key :=
  match nth_error accs n with Some m => mk m | None => 0 end.
(** [n] accounts starting at position [p]: the group of an external program — first the program, then
    the accounts it is given. *)
Definition group (accs : list Meta) (p : nat) (n : Z) : list Meta := firstn (Z.to_nat n) (skipn p accs).
Definition group_prog (g : list Meta) : key := match g with m :: _ => mk m | [] => 0 end.
Definition group_accs (g : list Meta) : list Meta := tl g.

(** [on k x v]: [v] when [k] is the account [x], nothing otherwise. *)
Definition on (k x : key) (v : Z) : Z := if k =? x then v else 0.

Definition total (w : World) : Z :=
  match the_pool w with Some ps => total_sol_value ps | None => 0 end.
Definition trading_fee_bps (w : World) : Z :=
  match the_pool w with Some ps => trading_protocol_fee_bps ps | None => 0 end.
Definition lp_fee_bps (w : World) : Z :=
  match the_pool w with Some ps => lp_protocol_fee_bps ps | None => 0 end.

(** The accounts of a swap (SwapExactIn / SwapExactOut account order). *)
Definition sw_src_mint accs := key_at accs 1.
Definition sw_dst_mint accs := key_at accs 2.
Definition sw_user_src accs := key_at accs 3.
Definition sw_user_dst accs := key_at accs 4.
Definition sw_fee_acc accs := key_at accs 5.
Definition sw_src_reserves accs := key_at accs 10.
Definition sw_dst_reserves accs := key_at accs 11.
(** The accounts of AddLiquidity / RemoveLiquidity. *)
Definition lq_mint accs := key_at accs 1.
Definition lq_user_lst accs := key_at accs 2.
Definition lq_user_lp accs := key_at accs 3.
Definition lq_lp_mint accs := key_at accs 4.
Definition lq_fee_acc accs := key_at accs 5.
Definition lq_reserves accs := key_at accs 10.

(** [swap_flow E w accs n m i j w2 src_in dst_out fee w']: the swap measures both reserves ([w2]), then
    moves [src_in] source tokens from the user to the source reserves and, from the destination
    reserves, [fee] to the fee accumulator and [dst_out] to the user — and nothing else — then
    measures both reserves again, ending in [w']. [n], [m] are the sizes of the two calculators'
    account groups, [i], [j] the list positions. *)
Definition swap_flow (E : Env) (w : World) (accs : list Meta) (n m i j : Z) (w2 : World)
  (src_in dst_out fee : Z) (w' : World) : Prop :=
  let gs := group accs 12 n in
  let gd := group accs (12 + Z.to_nat n) m in
  exists w1 w3 w4,
    revalued E w i (sw_src_reserves accs) (group_prog gs) (sw_src_mint accs) (group_accs gs) w1 /\
    revalued E w1 j (sw_dst_reserves accs) (group_prog gd) (sw_dst_mint accs) (group_accs gd) w2 /\
    same_controller_accounts w2 w3 /\ w_mint w3 = w_mint w2 /\
    (forall k, balance w3 k = balance w2 k
       - on k (sw_user_src accs) src_in + on k (sw_src_reserves accs) src_in
       - on k (sw_dst_reserves accs) (dst_out + fee)
       + on k (sw_fee_acc accs) fee + on k (sw_user_dst accs) dst_out) /\
    revalued E w3 i (sw_src_reserves accs) (group_prog gs) (sw_src_mint accs) (group_accs gs) w4 /\
    revalued E w4 j (sw_dst_reserves accs) (group_prog gd) (sw_dst_mint accs) (group_accs gd) w'.

(** The same for AddLiquidity: [to_reserves] and [fee] leave the user's LST account, [lp] LP tokens are
    minted to the user's LP account. *)
Definition add_flow (E : Env) (w : World) (accs : list Meta) (n i : Z) (w1 : World)
  (to_reserves fee lp : Z) (w' : World) : Prop :=
  let g := group accs 11 n in
  exists w2,
    revalued E w i (lq_reserves accs) (group_prog g) (lq_mint accs) (group_accs g) w1 /\
    same_controller_accounts w1 w2 /\
    (forall M, supply w2 M = supply w1 M + on M (lq_lp_mint accs) lp) /\
    (forall k, balance w2 k = balance w1 k
       - on k (lq_user_lst accs) (to_reserves + fee)
       + on k (lq_reserves accs) to_reserves + on k (lq_fee_acc accs) fee
       + on k (lq_user_lp accs) lp) /\
    revalued E w2 i (lq_reserves accs) (group_prog g) (lq_mint accs) (group_accs g) w'.
(** RemoveLiquidity: [lp] LP tokens are burned from the user's LP account, [to_user] and [fee] leave the
    reserves. *)
Definition remove_flow (E : Env) (w : World) (accs : list Meta) (n i : Z) (w1 : World)
  (lp to_user fee : Z) (w' : World) : Prop :=
  let g := group accs 11 n in
  exists w2,
    revalued E w i (lq_reserves accs) (group_prog g) (lq_mint accs) (group_accs g) w1 /\
    same_controller_accounts w1 w2 /\
    (forall M, supply w2 M = supply w1 M - on M (lq_lp_mint accs) lp) /\
    (forall k, balance w2 k = balance w1 k
       - on k (lq_user_lp accs) lp
       - on k (lq_reserves accs) (to_user + fee)
       + on k (lq_user_lst accs) to_user + on k (lq_fee_acc accs) fee) /\
    revalued E w2 i (lq_reserves accs) (group_prog g) (lq_mint accs) (group_accs g) w'.
(** StartRebalance: both reserves are measured ([w2]); [amount] moves from the source reserves to the
    receiving account; the source reserves are measured again; the record is created with the total
    measured in [w2], and the pool is flagged. *)
Definition start_flow (E : Env) (w : World) (accs : list Meta) (n i j : Z) (w2 : World) (amount : Z)
  (w' : World) : Prop :=
  let gs := group accs 12 n in
  let gd := skipn (12 + Z.to_nat n) accs in
  exists w1 w3 w4 ps4,
    revalued E w i (key_at accs 6) (group_prog gs) (key_at accs 4) (group_accs gs) w1 /\
    revalued E w1 j (key_at accs 7) (group_prog gd) (key_at accs 5) (group_accs gd) w2 /\
    same_controller_accounts w2 w3 /\ w_mint w3 = w_mint w2 /\
    (forall k, balance w3 k = balance w2 k - on k (key_at accs 6) amount + on k (key_at accs 8) amount) /\
    revalued E w3 i (key_at accs 6) (group_prog gs) (key_at accs 4) (group_accs gs) w4 /\
    the_pool w4 = Some ps4 /\ the_record w4 = None /\
    the_pool w' = Some (set_rebalancing ps4 1) /\ the_record w' = Some (mkRec (total w2) j) /\
    the_list w' = the_list w4 /\ same_tokens w4 w' /\ the_authorities w' = the_authorities w4.

(* ------------------------------------------------------------------ *)
(** * Values, rates and fees *)

(** The SOL value recorded for list entry [i]. *)
Definition recorded (w : World) (i : Z) : Z :=
  match the_list w with
  | Some l => match nth_error l (Z.to_nat i) with Some ls => sol_value ls | None => 0 end
  | None => 0
  end.
(** [valued E w calc mint accs x v]: in state [w] the calculator answers that [x] tokens are worth (at
    least) [v]. *)
Definition valued (E : Env) (w : World) (calc mint : key) (accs : list Meta) (x v : Z) : Prop :=
  exists hi, e_lst_to_sol E w calc mint accs x = Ok (v, hi).
(** The calculator [calc] works at the rate of [n]/[d] SOL per token, in every state, rounding down by
    less than [e] (so [e] = 1 is exactly the floor of x*n/d). *)
Definition at_rate (E : Env) (calc mint : key) (accs : list Meta) (n d e : Z) : Prop :=
  0 < n /\ 0 < d /\ 1 <= e /\
  forall w x v, valued E w calc mint accs x v -> v * d <= x * n < (v + e) * d.
(** bps/10000 of [x], rounded up. *)
Definition bps_share (bps x : Z) : Z := (x * bps + 9999) / 10000.
