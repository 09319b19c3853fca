(** Specification vocabulary for rent (C55): histories of the chain with its lamports. *)
From Coq Require Import ZArith List Bool.
From Verif Require Import Base State Controller Spec Rent.
Import ListNotations.
Open Scope Z_scope.

(** Rent is positive, and larger accounts need no less. *)
Definition rents_ok (Rs : Rents) : Prop :=
  (forall n, 0 <= n -> 0 < rent_for Rs n) /\ (forall n m, 0 <= n <= m -> rent_for Rs n <= rent_for Rs m).

(** Account [k], holding [size] bytes of data, is rent-exempt. *)
Definition exempt (Rs : Rents) (lam : Lam) (k : key) (size : Z) : Prop := rent_for Rs size <= lam k.
(** The token programs' and the runtime's rule: token accounts are rent-exempt as long as they exist. *)
Definition tokens_exempt (Rs : Rents) (s : World * Lam) : Prop :=
  forall k t, w_tok (fst s) k = Some t -> exempt Rs (snd s) k (token_size Rs (w_owner (fst s) k) (ta_mint t)).

(** The pool's own accounts: the controller's addresses, and token accounts of which it is the owner. *)
Definition pools_own (w : World) (k : key) : Prop :=
  In k controller_pdas \/
  exists t, w_tok w k = Some t /\ (ta_owner t = POOL_STATE_ID \/ ta_owner t = PROTOCOL_FEE_ID).

(** Only the controller can have accounts created at its own addresses, and none of them is a token account. *)
Definition no_token_pda (w : World) : Prop := forall k, In k controller_pdas -> w_tok w k = None.

(** What others may do to lamports: anything but taking them out of the pool's own accounts, or leaving a token
    account without its rent. *)
Record external_step_lam (Rs : Rents) (D : Derive) (s s' : World * Lam) : Prop := {
  xl_world : external_step D (fst s) (fst s');
  xl_nonneg : forall k, 0 <= snd s' k;
  xl_tokens : tokens_exempt Rs s';
  xl_pda : no_token_pda (fst s');
  xl_own : forall k, pools_own (fst s) k -> snd s k <= snd s' k }.

Inductive step_lam (Rs : Rents) (D : Derive) (s s' : World * Lam) : Prop :=
| stepl_external : external_step_lam Rs D s s' -> step_lam Rs D s s'
| stepl_controller E C accs ix :
    pdas_do_not_sign accs -> processL Rs D E C s accs ix = Ok s' -> step_lam Rs D s s'.
Inductive steps_lam (Rs : Rents) (D : Derive) : World * Lam -> World * Lam -> Prop :=
| stepsl_refl s : steps_lam Rs D s s
| stepsl_cons s1 s2 s3 : steps_lam Rs D s1 s2 -> step_lam Rs D s2 s3 -> steps_lam Rs D s1 s3.
Definition genesis_lam (Rs : Rents) (D : Derive) (s : World * Lam) : Prop :=
  genesis D (fst s) /\ (forall k, 0 <= snd s k) /\ tokens_exempt Rs s /\ no_token_pda (fst s).
Definition reachable_lam (Rs : Rents) (D : Derive) (s : World * Lam) : Prop :=
  exists s0, genesis_lam Rs D s0 /\ steps_lam Rs D s0 s.

(** Every account of the pool that holds data is rent-exempt, save that the pool state lends one lamport to the
    rebalance record while a rebalance is under way. *)
Record funded (Rs : Rents) (s : World * Lam) : Prop := {
  li_nonneg : forall k, 0 <= snd s k;
  li_pool : forall ps, the_pool (fst s) = Some ps -> is_rebalancing ps = 0 -> exempt Rs (snd s) POOL_STATE_ID 176;
  li_moving : forall ps, the_pool (fst s) = Some ps -> is_rebalancing ps <> 0 ->
    rent_for Rs 176 <= snd s POOL_STATE_ID + 1 /\ 1 <= snd s REBALANCE_RECORD_ID;
  li_list : forall l, the_list (fst s) = Some l -> l <> [] -> exempt Rs (snd s) LST_STATE_LIST_ID (80 * Z.of_nat (length l));
  li_auth : forall l, the_authorities (fst s) = Some l -> l <> [] ->
    exempt Rs (snd s) DISABLE_POOL_AUTHORITY_LIST_ID (32 * Z.of_nat (length l));
  li_tok : tokens_exempt Rs s;
  li_pda : no_token_pda (fst s) }.

(** Lamports held by the accounts [ks] together. *)
Definition lamports (lam : Lam) (ks : list key) : Z := sumZ (map lam ks).
(** What account [k] lacks to be rent-exempt with [size] bytes. *)
Definition short (Rs : Rents) (lam : Lam) (k : key) (size : Z) : Z := Z.max 0 (rent_for Rs size - lam k).

(* ------------------------------------------------------------------ *)
(** * Who pays whom *)
Record Flow := mkFlow { fl_from : key; fl_to : key; fl_amount : Z }.
Definition paid_out (k : key) (fs : list Flow) : Z := sumZ (map (fun f => if fl_from f =? k then fl_amount f else 0) fs).
Definition received (k : key) (fs : list Flow) : Z := sumZ (map (fun f => if fl_to f =? k then fl_amount f else 0) fs).
(** [lam'] is [lam] after the payments [fs], at every address. *)
Definition settled (lam : Lam) (fs : list Flow) (lam' : Lam) : Prop :=
  forall k, lam' k = lam k - paid_out k fs + received k fs.

(** The payments each instruction makes. Accounts are named by their place in the call, as documented; the pool's state
    takes 176 bytes, each listed LST 80, each authority 32. *)
Definition rent_flows (Rs : Rents) (w : World) (lam : Lam) (accs : list Meta) (ix : Ix) : list Flow :=
  match ix with
  | Initialize => [mkFlow (key_at accs 0) POOL_STATE_ID (short Rs lam POOL_STATE_ID 176)]
  | AddLst =>
      let payer := key_at accs 1 in let mint := key_at accs 2 in
      let reserves := key_at accs 3 in let accumulator := key_at accs 4 in
      let size := token_size Rs (w_owner w mint) mint in
      let creation k := match w_tok w k with None => short Rs lam k size | Some _ => 0 end in
      let n := match the_list w with Some l => Z.of_nat (length l) | None => 0 end in
      [mkFlow payer reserves (creation reserves); mkFlow payer accumulator (creation accumulator);
       mkFlow payer LST_STATE_LIST_ID (short Rs lam LST_STATE_LIST_ID (80 * (n + 1)))]
  | RemoveLst _ =>
      let refund := key_at accs 1 in let reserves := key_at accs 3 in let accumulator := key_at accs 4 in
      let n := match the_list w with Some l => Z.of_nat (length l) | None => 0 end in
      [mkFlow accumulator refund (lam accumulator); mkFlow reserves refund (lam reserves);
       mkFlow LST_STATE_LIST_ID refund
         (lam LST_STATE_LIST_ID - (if n =? 1 then 0 else rent_for Rs (80 * (n - 1))))]
  | AddDisablePoolAuthority =>
      let n := match the_authorities w with Some l => Z.of_nat (length l) | None => 0 end in
      [mkFlow (key_at accs 0) DISABLE_POOL_AUTHORITY_LIST_ID (short Rs lam DISABLE_POOL_AUTHORITY_LIST_ID (32 * (n + 1)))]
  | RemoveDisablePoolAuthority _ =>
      let n := match the_authorities w with Some l => Z.of_nat (length l) | None => 0 end in
      [mkFlow DISABLE_POOL_AUTHORITY_LIST_ID (key_at accs 0)
         (lam DISABLE_POOL_AUTHORITY_LIST_ID - (if n =? 1 then 0 else rent_for Rs (32 * (n - 1))))]
  | StartRebalance _ => [mkFlow POOL_STATE_ID REBALANCE_RECORD_ID 1]
  | EndRebalance => [mkFlow REBALANCE_RECORD_ID POOL_STATE_ID (lam REBALANCE_RECORD_ID)]
  | _ => []
  end.

(** Whom an instruction may leave with less SOL. *)
Definition may_lose (w : World) (accs : list Meta) (ix : Ix) (k : key) : Prop :=
  (signed_by accs k /\ passed_writable accs k /\ w_tok w k = None) \/
  match ix with
  | RemoveLst _ => k = key_at accs 3 \/ k = key_at accs 4 \/ k = LST_STATE_LIST_ID
  | RemoveDisablePoolAuthority _ => k = DISABLE_POOL_AUTHORITY_LIST_ID
  | StartRebalance _ => k = POOL_STATE_ID
  | EndRebalance => k = REBALANCE_RECORD_ID
  | _ => False
  end.

(** What the payer of an instruction is asked for. *)
Definition owed (Rs : Rents) (w : World) (lam : Lam) (accs : list Meta) (ix : Ix) : Z :=
  match ix with
  | Initialize | AddLst | AddDisablePoolAuthority => sumZ (map fl_amount (rent_flows Rs w lam accs ix))
  | _ => 0
  end.
Definition payer_of (accs : list Meta) (ix : Ix) : key := match ix with AddLst => key_at accs 1 | _ => key_at accs 0 end.
(** The payer has what is asked for, and is not a token account; rent is not to be returned to an account being closed. *)
Definition affordable (Rs : Rents) (w : World) (lam : Lam) (accs : list Meta) (ix : Ix) : Prop :=
  match ix with
  | Initialize | AddDisablePoolAuthority => w_tok w (key_at accs 0) = None /\ owed Rs w lam accs ix <= lam (key_at accs 0)
  | AddLst => w_tok w (key_at accs 1) = None /\ owed Rs w lam accs ix <= lam (key_at accs 1) /\
      key_at accs 1 <> key_at accs 3 /\ key_at accs 1 <> key_at accs 4
  | RemoveLst _ => key_at accs 1 <> key_at accs 3 /\ key_at accs 1 <> key_at accs 4 /\ key_at accs 1 <> LST_STATE_LIST_ID
  | RemoveDisablePoolAuthority _ => key_at accs 0 <> DISABLE_POOL_AUTHORITY_LIST_ID
  | _ => True
  end.
