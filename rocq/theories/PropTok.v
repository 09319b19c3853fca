(** Token movements: C10, C30, C31. *)
From Coq Require Import ZArith List Bool Lia.
From Verif Require Import Base Ratio Calc State Controller Inversion ProcInv Spec CalcProofs InvProofs
  TokProofs AccessProofs ShapeProofs MoneyProofs Concrete ConcreteReach.
Import ListNotations.
Open Scope Z_scope.

(* ------------------------------------------------------------------ *)
(** C10. For every mint and every set of token accounts that contains the accounts passed to the call,
    the total held changes exactly by the change of the mint's supply; token accounts that are not
    passed are untouched; only the LP mint's supply can change, and only in AddLiquidity (up, by exactly
    the LP tokens credited to the user, at least the minimum asked for) and RemoveLiquidity (down, by
    exactly the LP tokens named in the call, which leave the user's LP account). *)
Theorem C10_conserved D E C w accs ix w' M ks :
  process D E C w accs ix = Ok w' -> NoDup ks -> incl (map mk accs) ks ->
  holdings w' M ks - holdings w M ks = supply w' M - supply w M.
Proof. intros H. apply process_tc in H as ((_ & H) & _). auto. Qed.
Theorem C10_others_untouched D E C w accs ix w' k :
  process D E C w accs ix = Ok w' -> ~ In k (map mk accs) -> w_tok w' k = w_tok w k.
Proof. intros H. apply process_tc in H as ((H & _) & _). auto. Qed.

Lemma sum_le_incl (f : key -> Z) l l' : (forall k, 0 <= f k) -> NoDup l -> incl l l' -> sumZ (map f l) <= sumZ (map f l').
Proof.
  intros Hf Hn. revert l'. induction Hn as [|x l Hx Hn IH]; intros l' Hi; cbn [map sumZ].
  - apply sumZ_nonneg. apply Forall_forall. intros y Hy. apply in_map_iff in Hy as (k & <- & _). auto.
  - destruct (in_split x l' (Hi x (or_introl eq_refl))) as (l1 & l2 & ->).
    assert (Hl : incl l (l1 ++ l2)).
    { intros y Hy. specialize (Hi y (or_intror Hy)). apply in_app_iff in Hi. apply in_app_iff.
      destruct Hi as [Hi|[Hi|Hi]]; auto. subst. contradiction. }
    specialize (IH _ Hl). rewrite map_app, sumZ_app in *. cbn [map sumZ]. lia.
Qed.
(** So no token is ever issued unbacked: a mint whose holders together hold at most its supply stays one. *)
Theorem C10_backed D (HD : derive_ok D) E C w accs ix w' M :
  reachable D w -> process D E C w accs ix = Ok w' -> supply_sound w M -> supply_sound w' M.
Proof.
  intros Hr H Hs ks Hn. pose proof (process_base D HD E C w accs ix w' H (proj1 (reachable_inv D HD w Hr))) as Hb.
  set (all := nodup Z.eq_dec (ks ++ map mk accs)).
  assert (Hall : NoDup all) by apply NoDup_nodup.
  assert (Hin : forall k, In k all <-> In k ks \/ In k (map mk accs)).
  { intros k. unfold all. rewrite nodup_In. apply in_app_iff. }
  assert (Hc : holdings w' M all - holdings w M all = supply w' M - supply w M).
  { eapply C10_conserved; eauto. intros k Hk. apply Hin. auto. }
  specialize (Hs all Hall).
  assert (holdings w' M ks <= holdings w' M all); [|lia]. unfold holdings. apply sum_le_incl; auto.
  - intros k. unfold balance_of_mint. destruct (w_tok w' k) as [t|] eqn:Et; [|lia]. destruct (ta_mint t =? M); [|lia].
    apply (proj1 (base_u64 _ Hb) _ _ Et).
  - intros k Hk. apply Hin. auto.
Qed.

Lemma revalued_supply E w i r c m a w' : revalued E w i r c m a w' -> supply w' = supply w /\ balance w' = balance w.
Proof. intros H. apply revalued_tokens in H as (H1 & H2). unfold supply, balance. now rewrite H1, H2. Qed.

Lemma add_supply D (HD : derive_ok D) E C w accs a w' :
  reachable D w -> process D E C w accs (AddLiquidity a) = Ok w' ->
  exists ps lp, the_pool w = Some ps /\ lq_lp_mint accs = lp_token_mint ps /\ 0 < lp /\ al_min_lp_out a <= lp /\
    (forall M, supply w' M = supply w M + on M (lp_token_mint ps) lp) /\
    (forall k t, w_tok w k = Some t -> ta_mint t = lp_token_mint ps -> lp_token_mint ps <> lq_mint accs ->
       balance w' k = balance w k + on k (lq_user_lp accs) lp).
Proof.
  intros Hr H. pose proof (proj1 (reachable_inv D HD _ Hr)) as Hb.
  pose proof (add_parties _ _ _ _ _ _ _ H) as (l & ls & t & _ & _ & _ & HQ & _).
  apply add_run in H; auto. cbv zeta in H.
  destruct H as (w1 & lst_sol & lst_hi & af & tr & fee & lp & HF & _ & _ & _ & _ & _ & _ & _ & _ & _ & _ & Hlp & Hmin &
    _ & _ & _ & _ & _ & _ & Hs & _ & (ps & Hp & Hm)).
  exists ps, lp. destruct HF as (w2 & R1 & _ & HS & HB & R2).
  apply revalued_supply in R1 as (S1 & B1), R2 as (S2 & B2).
  csplit; auto.
  - intros M. rewrite S2, HS, S1, Hm. reflexivity.
  - intros k tt Ht Hmt Hne. rewrite B2, HB, B1.
    destruct HQ as (_ & (t1 & T1 & T1') & _ & (t2 & T2 & T2') & (t3 & T3 & T3') & _).
    rewrite (on_other k (lq_user_lst accs)), (on_other k (lq_reserves accs)), (on_other k (lq_fee_acc accs)); [lia|..];
      intros ->; congruence.
Qed.

Theorem C10_supply D (HD : derive_ok D) E C w accs ix w' M :
  reachable D w -> process D E C w accs ix = Ok w' -> supply w' M <> supply w M ->
  exists ps, the_pool w = Some ps /\ M = lp_token_mint ps /\
    match ix with
    | AddLiquidity a => M = lq_lp_mint accs /\ supply w M < supply w' M /\
        al_min_lp_out a <= supply w' M - supply w M
    | RemoveLiquidity a => M = lq_lp_mint accs /\ supply w' M = supply w M - rl_lp_token_amount a
    | _ => False
    end.
Proof.
  intros Hr H Hne. pose proof H as H0. apply process_tc in H as (_ & [H|(ps & Hp & Hm & Hx)]).
  - now specialize (H M).
  - exists ps. split; auto. assert (HM : M = lp_token_mint ps).
    { destruct (Z.eq_dec M (lp_token_mint ps)); auto. exfalso. auto. }
    split; auto. destruct Hx as [(a & ->)|(a & -> & Hs)].
    + destruct (add_supply D HD _ _ _ _ _ _ Hr H0) as (ps1 & lp & Hp1 & Hk & Hl & Hmin & HS & _).
      assert (ps1 = ps) by congruence. subst ps1. rewrite HS, HM, on_same. csplit; auto; lia.
    + rewrite HM. split; auto. pose proof (proj1 (reachable_inv D HD _ Hr)) as Hb.
      apply remove_run in H0; auto. cbv zeta in H0.
      destruct H0 as (? & ? & ? & ? & ? & ? & H0). decompose [and ex] H0. congruence.
Qed.

(** The LP tokens credited to the depositor are exactly the newly issued ones (the LP mint itself is not
    an LST of the pool here). *)
Theorem C10_minted_to_user D (HD : derive_ok D) E C w accs a w' ps k t :
  reachable D w -> process D E C w accs (AddLiquidity a) = Ok w' -> the_pool w = Some ps ->
  w_tok w k = Some t -> ta_mint t = lp_token_mint ps -> lp_token_mint ps <> lq_mint accs ->
  balance w' k = balance w k + on k (lq_user_lp accs) (supply w' (lp_token_mint ps) - supply w (lp_token_mint ps)).
Proof.
  intros Hr H Hp Ht Hm Hne. destruct (add_supply D HD _ _ _ _ _ _ Hr H) as (ps1 & lp & Hp1 & Hk & Hl & Hmin & HS & HB).
  assert (ps1 = ps) by congruence. subst ps1. rewrite (HB k t), HS, on_same by auto. f_equal. f_equal. lia.
Qed.

(** Every mint of the example world is sound at the start, so it stays sound. *)
Lemma sum_support (f : key -> Z) L ks : (forall k, 0 <= f k) -> (forall k, ~ In k L -> f k = 0) -> NoDup ks ->
  sumZ (map f ks) <= sumZ (map f L).
Proof.
  intros Hf H0 Hn. set (g := fun k => if in_dec Z.eq_dec k L then true else false).
  assert (sumZ (map f ks) = sumZ (map f (filter g ks))) as ->.
  { clear Hn. induction ks as [|k ks IH]; cbn [map sumZ filter]; [reflexivity|]. unfold g at 1.
    destruct (in_dec Z.eq_dec k L); cbn [map sumZ]; [lia|]. rewrite (H0 k n). lia. }
  apply sum_le_incl; [auto|now apply NoDup_filter|]. intros k Hk. apply filter_In in Hk as (_ & Hk). unfold g in Hk.
  destruct (in_dec Z.eq_dec k L); [auto|discriminate].
Qed.
Lemma W0_sound M : M = LP \/ M = MA \/ M = MB -> supply_sound W0 M.
Proof.
  intros HM ks Hn. unfold holdings.
  eapply Z.le_trans; [apply (sum_support _ [UA; UB; UL; BF]); [| |exact Hn]|].
  - intros k. unfold balance_of_mint. cbn [W0 w_tok]. unfold at_key, upd.
    repeat match goal with |- context [if ?b then _ else _] => destruct b; cbn [ta_amount ta_mint] end; lia.
  - intros k Hk. unfold balance_of_mint. cbn [W0 w_tok]. unfold at_key, upd.
    repeat match goal with |- context [?x =? k] => destruct (Z.eqb_spec x k); [subst; exfalso; apply Hk; cbn; tauto|]
      | |- context [k =? ?x] => destruct (Z.eqb_spec k x); [subst; exfalso; apply Hk; cbn; tauto|] end. reflexivity.
  - destruct HM as [->|[->| ->]]; vm_compute; congruence.
Qed.
Ltac sound W R Hr Hs := intros HM; unfold W, R; eapply (C10_backed D0 D0_ok); [exact Hr|apply okb_get; vm_compute; reflexivity|exact (Hs _ HM)].
Lemma W1_sound M : M = LP \/ M = MA \/ M = MB -> supply_sound W1 M. Proof. sound W1 R1 W0_reach W0_sound. Qed.
Lemma W2_sound M : M = LP \/ M = MA \/ M = MB -> supply_sound W2 M. Proof. sound W2 R2 W1_reach W1_sound. Qed.
Lemma W3_sound M : M = LP \/ M = MA \/ M = MB -> supply_sound W3 M. Proof. sound W3 R3 W2_reach W2_sound. Qed.
Lemma W4_sound M : M = LP \/ M = MA \/ M = MB -> supply_sound W4 M. Proof. sound W4 R4 W3_reach W3_sound. Qed.
Lemma W5_sound M : M = LP \/ M = MA \/ M = MB -> supply_sound W5 M. Proof. sound W5 R5 W4_reach W4_sound. Qed.
Lemma W6_sound M : M = LP \/ M = MA \/ M = MB -> supply_sound W6 M. Proof. sound W6 R6 W5_reach W5_sound. Qed.
Lemma W7_sound M : M = LP \/ M = MA \/ M = MB -> supply_sound W7 M. Proof. sound W7 R7 W6_reach W6_sound. Qed.
Lemma W8_sound M : M = LP \/ M = MA \/ M = MB -> supply_sound W8 M. Proof. sound W8 R8 W7_reach W7_sound. Qed.

Example C10_case :
  reachable D0 W5 /\ R6 = Ok W6 /\ reachable D0 W3 /\ R4 = Ok W4 /\ supply W4 LP = supply W3 LP + 990000 /\
  balance W4 UL = 990000 /\ balance W6 UB <> balance W5 UB /\ supply_sound W5 LP /\ supply_sound W5 MB.
Proof.
  split; [exact W5_reach|]. split; [apply okb_get; vm_compute; reflexivity|]. split; [exact W3_reach|].
  split; [apply okb_get; vm_compute; reflexivity|].
  split; [vm_compute; reflexivity|]. split; [vm_compute; reflexivity|]. split; [vm_compute; congruence|].
  split; apply W5_sound; auto.
Qed.

(* ------------------------------------------------------------------ *)
(** C30. A token account held by the fee PDA loses tokens only in a WithdrawProtocolFees signed by the
    beneficiary on record. That call takes exactly the amount asked for, at most the balance, from the
    fee accumulator of the mint of the receiving account, into that account, and moves nothing else. *)
Theorem C30_only_withdraw D (HD : derive_ok D) E C w accs ix w' k t :
  reachable D w -> pdas_do_not_sign accs -> process D E C w accs ix = Ok w' ->
  w_tok w k = Some t -> ta_owner t = PROTOCOL_FEE_ID -> balance w' k < balance w k ->
  exists amount ps, ix = WithdrawProtocolFees amount /\ the_pool w = Some ps /\
    signed_by accs (protocol_fee_beneficiary ps).
Proof.
  intros Hr Hn H Ht Ho Hlt. pose proof (proj1 (reachable_inv D HD _ Hr)) as Hb.
  destruct (process_not_drained _ _ _ _ _ _ _ Hb Hn H) as (_ & H2).
  destruct ix; cbn in H2;
    try (exfalso; specialize (H2 eq_refl k t Ht Ho); lia).
  unfold process in H. apply guard_ok in H as (_ & H). apply withdraw_inv in H.
  destruct H as (b & wt & pfa & pa & tp & P & lm & rest & ps & x & y & -> & _ & _ & _ & _ & _ & Hs & Hbk & Hp & _).
  eexists _, ps. csplit; auto. exists b. cbn. auto.
Qed.
Theorem C30_exact D E C w accs amount w' :
  process D E C w accs (WithdrawProtocolFees amount) = Ok w' ->
  exists to from tt tf ps,
    key_at accs 1 = to /\ key_at accs 2 = from /\ w_tok w to = Some tt /\ w_tok w from = Some tf /\
    the_pool w = Some ps /\ signed_by accs (protocol_fee_beneficiary ps) /\
    ta_mint tf = ta_mint tt /\ ta_owner tf = PROTOCOL_FEE_ID /\
    from = fst (d_find D PROTOCOL_FEE_ID (w_owner w to) (ta_mint tt)) /\
    amount <= balance w from /\
    (forall k, balance w' k = balance w k - on k from amount + on k to amount) /\
    (forall M, supply w' M = supply w M) /\ same_controller_accounts w w'.
Proof.
  intros H. unfold process in H. apply guard_ok in H as (_ & H). apply withdraw_inv in H.
  destruct H as (b & wt & pfa & pa & tp & P & lm & rest & ps & x & y & -> & HP & HF & HT & _ & _ & Hs & Hbk & Hp & _ &
    Hx & Hm & Hd & Hy & Hle & T).
  exists (mk wt), (mk pfa), x, y, ps. pose proof (transfer_ctl _ _ _ _ _ _ _ _ _ T) as HC.
  destruct (transfer_parties _ _ _ _ _ _ _ _ _ _ T (shape_refl _)) as ((f & F1 & F2 & F3) & _).
  assert (f = y) by congruence. subst f.
  pose proof (transfer_balance _ _ _ _ _ _ _ _ _ T) as (TB & TM & _).
  csplit; try exact TB; auto using ctl_same_ctl.
  - exists b. cbn. auto.
  - congruence.
  - now rewrite <- Hm, Hd.
  - unfold balance. now rewrite Hy.
  - intros M. unfold supply. now rewrite TM.
Qed.
Example C30_case :
  reachable D0 W14 /\ R15 = Ok W15 /\ w_tok W14 FB <> None /\ balance W15 FB = balance W14 FB - 5 /\
  balance W15 BF = 5 /\ pdas_do_not_sign withdraw_accs.
Proof.
  split; [exact W14_reach|]. split; [apply okb_get; vm_compute; reflexivity|].
  split; [vm_compute; congruence|]. split; [vm_compute; reflexivity|]. split; [vm_compute; reflexivity|].
  apply pdas_do_not_signb_ok. reflexivity.
Qed.

(* ------------------------------------------------------------------ *)
(** C31. A token account held by the pool loses tokens only in a swap, a RemoveLiquidity or a
    StartRebalance; in a swap only the destination reserves do, in a RemoveLiquidity only the reserves of
    the redeemed LST, in a StartRebalance only the source reserves. *)
Definition paying_reserve (accs : list Meta) (ix : Ix) : option key :=
  match ix with
  | SwapExactIn _ | SwapExactOut _ => Some (sw_dst_reserves accs)
  | RemoveLiquidity _ => Some (lq_reserves accs)
  | StartRebalance _ => Some (key_at accs 6)
  | _ => None
  end.
Lemma signer_not_pool accs t k :
  pdas_do_not_sign accs -> ta_owner t = key_at accs 0 -> signed_by accs (key_at accs 0) ->
  ta_owner k = POOL_STATE_ID -> ta_owner t <> ta_owner k.
Proof.
  intros Hn Ho (a & Ha & Hs & He) Hk Heq. apply (Hn a Ha Hs). rewrite He, <- Ho, Heq, Hk. cbn. auto.
Qed.
Lemma swap_flow_keeps D E w accs n m i j w2 si so fee w' lsrc ldst k t :
  swap_parties D w accs lsrc ldst -> pdas_do_not_sign accs ->
  swap_flow E w accs n m i j w2 si so fee w' -> 0 <= si -> 0 <= so -> 0 <= fee ->
  w_tok w k = Some t -> ta_owner t = POOL_STATE_ID -> k <> sw_dst_reserves accs -> balance w k <= balance w' k.
Proof.
  intros (_ & _ & _ & _ & (u & U1 & U2 & U3 & U4) & _) Hn (w1 & w3 & w4 & R1 & R2 & _ & _ & HB & R3 & R4) ? ? ? Ht Ho Hne.
  assert (Honn : forall x v, 0 <= v -> 0 <= on k x v) by (intros x v; unfold on; destruct (k =? x); lia).
  apply revalued_supply in R1 as (_ & B1), R2 as (_ & B2), R3 as (_ & B3), R4 as (_ & B4).
  rewrite B4, B3, HB, B2, B1.
  rewrite (on_other k (sw_dst_reserves accs)) by auto.
  rewrite (on_other k (sw_user_src accs))
      by (intros ->; apply (signer_not_pool accs u t Hn U3 U4 Ho); congruence).
  pose proof (Honn (sw_src_reserves accs) si). pose proof (Honn (sw_fee_acc accs) fee).
  pose proof (Honn (sw_user_dst accs) so). lia.
Qed.
Theorem C31_only_paid D (HD : derive_ok D) E C w accs ix w' k t :
  reachable D w -> pdas_do_not_sign accs -> process D E C w accs ix = Ok w' ->
  w_tok w k = Some t -> ta_owner t = POOL_STATE_ID -> balance w' k < balance w k ->
  paying_reserve accs ix = Some k.
Proof.
  intros Hr Hn H Ht Ho Hlt. pose proof (proj1 (reachable_inv D HD _ Hr)) as Hb.
  destruct (process_not_drained _ _ _ _ _ _ _ Hb Hn H) as (H2 & _).
  assert (Honn : forall x v, 0 <= v -> 0 <= on k x v) by (intros x v; unfold on; destruct (k =? x); lia).
  destruct ix; cbn in H2;
    try (exfalso; specialize (H2 eq_refl k t Ht Ho); lia); clear H2; cbn [paying_reserve].
  - destruct (swap_in_parties _ _ _ _ _ _ _ H) as (l & lsrc & ldst & _ & _ & _ & HQ).
    apply swap_in_run in H; auto. cbv zeta in H.
    destruct H as (w2 & ? & ? & ? & ? & ? & fee & HF & H).
    destruct (Z.eq_dec (sw_dst_reserves accs) k) as [->|Hne]; [reflexivity|exfalso].
    unfold U64 in *. pose proof (swap_flow_keeps _ _ _ _ _ _ _ _ _ _ _ _ _ _ _ k t HQ Hn HF ltac:(lia) ltac:(lia) ltac:(lia) Ht Ho ltac:(congruence)). lia.
  - destruct (swap_out_parties _ _ _ _ _ _ _ H) as (l & lsrc & ldst & _ & _ & _ & HQ).
    apply swap_out_run in H; auto. cbv zeta in H.
    destruct H as (w2 & ? & ? & ? & ? & ? & fee & HF & H).
    destruct (Z.eq_dec (sw_dst_reserves accs) k) as [->|Hne]; [reflexivity|exfalso].
    unfold U64 in *. pose proof (swap_flow_keeps _ _ _ _ _ _ _ _ _ _ _ _ _ _ _ k t HQ Hn HF ltac:(lia) ltac:(lia) ltac:(lia) Ht Ho ltac:(congruence)). lia.
  - destruct (remove_parties _ _ _ _ _ _ _ H) as (l & ls & u & _ & _ & _ & U1 & U3 & U4).
    apply remove_run in H; auto. cbv zeta in H.
    destruct H as (w1 & ? & ? & ? & ? & fee & (w2 & R1 & _ & _ & HB & R2) & H).
    apply revalued_supply in R1 as (_ & B1), R2 as (_ & B2).
    destruct (Z.eq_dec (lq_reserves accs) k) as [->|Hne]; [reflexivity|exfalso].
    rewrite B2, HB, B1 in Hlt. rewrite (on_other k (lq_reserves accs)) in Hlt by auto.
    rewrite (on_other k (lq_user_lp accs)) in Hlt
      by (intros ->; apply (signer_not_pool accs u t Hn U3 U4 Ho); congruence).
    pose proof (Honn (lq_fee_acc accs) fee).
    match type of Hlt with context[on k (lq_user_lst accs) ?v] => pose proof (Honn (lq_user_lst accs) v) end. lia.
  - apply start_run in H; auto.
    destruct H as (w2 & l & lsrc & ldst & ps & (w1 & w3 & w4 & ps4 & R1 & R2 & _ & _ & HB & R3 & _ & _ & _ & _ & _ & HT & _) & H).
    apply revalued_supply in R1 as (_ & B1), R2 as (_ & B2), R3 as (_ & B3).
    destruct (Z.eq_dec (key_at accs 6) k) as [->|Hne]; [reflexivity|exfalso].
    assert (B4 : balance w' = balance w4) by (unfold balance; now rewrite (proj1 HT)).
    rewrite B4, B3, HB, B2, B1, (on_other k (key_at accs 6)) in Hlt by auto.
    pose proof (Honn (key_at accs 8) (sr_amount a)). lia.
Qed.
Example C31_case :
  reachable D0 W8 /\ R9 = Ok W9 /\ w_tok W8 RA <> None /\ balance W9 RA = balance W8 RA - 10000 /\
  reachable D0 W5 /\ R6 = Ok W6 /\ balance W6 RB < balance W5 RB /\ pdas_do_not_sign swap_accs.
Proof.
  split; [exact W8_reach|]. split; [apply okb_get; vm_compute; reflexivity|].
  split; [vm_compute; congruence|]. split; [vm_compute; reflexivity|]. split; [exact W5_reach|].
  split; [apply okb_get; vm_compute; reflexivity|]. split; [vm_compute; reflexivity|].
  apply pdas_do_not_signb_ok. reflexivity.
Qed.
