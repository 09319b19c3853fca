(** C12: a rebalance never loses pool value. *)
From Coq Require Import ZArith List Bool Lia.
From Verif Require Import Base Ratio Calc State Controller Inversion ProcInv Spec CalcProofs InvProofs
  TokProofs AccessProofs ShapeProofs MoneyProofs Concrete ConcreteReach PropAccess PropMoney.
Import ListNotations.
Open Scope Z_scope.

(** C12. Take a StartRebalance, any history during which the pool stays flagged as rebalancing, and the
    EndRebalance that closes it. [wm] is the state in which StartRebalance had measured both reserves and
    nothing had left the pool yet. The end measures the actual balance of the destination reserves (of
    the mint named at the start), and the pool total after the end is at least the total in [wm]. *)
Theorem C12_rebalance_keeps_value D E C w accs a ws we E' C' accs' w' :
  derive_ok D -> reachable D w -> pdas_do_not_sign accs ->
  process D E C w accs (StartRebalance a) = Ok ws ->
  steps_within D pool_is_rebalancing ws we ->
  process D E' C' we accs' EndRebalance = Ok w' ->
  exists wm,
    start_flow E w accs (sr_src_lst_calc_accs a) (sr_src_lst_index a) (sr_dst_lst_index a) wm
      (sr_amount a) ws /\
    total wm <= total w' /\
    key_at accs' 4 = key_at accs 5 /\
    exists v wz, same_tokens we wz /\
      valued E' wz (key_at accs' 6) (key_at accs' 4) (skipn 7 accs') (balance we (key_at accs' 5)) v /\
      recorded w' (sr_dst_lst_index a) = v /\
      total w' = total ws - recorded ws (sr_dst_lst_index a) + v.
Proof.
  intros HD Hr Hpd HS Hw HE.
  pose proof (reach_ctl _ _ _ _ _ _ _ Hr Hpd HS) as Hrs.
  destruct (C13_frozen D ws we HD Hrs Hw) as (FL & FR & ps0 & pse & P0 & Pe & FP).
  pose proof (proj1 (reachable_inv D HD w Hr)) as Hb.
  destruct (start_run D _ _ _ _ _ _ Hb HS) as (wm & l & lsrc & ldst & ps & Hflow & Hp & _ & Hl & _ & N2 & _ & M2 & _).
  exists wm. split; [exact Hflow|].
  destruct Hflow as (w1 & w3 & w4 & ps4 & V1 & V2 & SC & _ & _ & V3 & Hp4 & _ & HpS & HrS & HlS & _ & _).
  unfold process in HE. apply guard_ok in HE as (_ & HE). apply end_rebalance_inv in HE; auto.
  destruct HE as (ra & pst & lst & rr & dm & dr & c & q & l' & r & ld & w2 & ps2 & -> & _ & _ & _ & _ & _ & _ &
    _ & _ & Hq & _ & Hl' & Hrec & Hn & Hm & _ & _ & S & Hp2 & Hle & ->).
  unfold the_record in FR, HrS. rewrite Hrec, HrS in FR. injection FR as ->. cbn [old_total_sol_value dst_lst_index] in *.
  apply sync_revalued in S.
  destruct S as (v & hi & qz & lz & lsz & _ & Hv & Hpz & Hlz & Hnz & Hpz' & Hlz' & _ & _ & _).
  unfold the_pool, the_list in *. cbn [w_pool w_list put_pool put_rec] in *. rewrite upd_same in Hpz. injection Hpz as <-.
  rewrite Hlz in Hl'. injection Hl' as ->.
  assert (E1 : total (put_rec w2 REBALANCE_RECORD_ID None) = total_sol_value ps2).
  { unfold total, the_pool. cbn. now rewrite Hp2. }
  split; [rewrite E1; exact Hle|].
  (* the list did not change, so the entry found at the end is the one found at the start *)
  assert (HM : map ls_mint l' = map ls_mint l).
  { rewrite Hlz, HlS in FL.
    destruct V1 as (a1&a2&a3&a4&a5&_&_&_&L1&n1&_&L1'&_). destruct V2 as (b1&b2&b3&b4&b5&_&_&_&L2&n2&_&L2'&_).
    destruct V3 as (c1&c2&c3&c4&c5&_&_&_&L3&n3&_&L3'&_). destruct SC as (_ & SL & _).
    unfold the_list in *. rewrite L3' in FL. injection FL as ->. rewrite SL, L2' in L3. injection L3 as <-.
    rewrite L1' in L2. injection L2 as <-. rewrite Hl in L1. injection L1 as <-.
    rewrite !map_replace_nth. cbn [ls_mint set_sol_value].
    rewrite (replace_nth_self (map ls_mint l)); [|now apply map_nth_error].
    rewrite (replace_nth_self (map ls_mint l)).
    2:{ apply map_nth_error with (f := ls_mint) in n2. rewrite map_replace_nth in n2. cbn in n2.
        rewrite replace_nth_self in n2; auto. now apply map_nth_error. }
    apply replace_nth_self. apply map_nth_error with (f := ls_mint) in n3. rewrite !map_replace_nth in n3. cbn in n3.
    rewrite (replace_nth_self (map ls_mint l) _ (ls_mint a5)) in n3; [|now apply map_nth_error].
    rewrite replace_nth_self in n3; auto.
    apply map_nth_error with (f := ls_mint) in n2. rewrite map_replace_nth in n2. cbn in n2.
    rewrite replace_nth_self in n2; auto. now apply map_nth_error. }
  split.
  { cbn. unfold nth_lst in Hn. apply map_nth_error with (f := ls_mint) in Hn. rewrite HM in Hn.
    apply map_nth_error with (f := ls_mint) in N2. rewrite N2 in Hn. injection Hn as Hn. congruence. }
  exists v, (put_pool we POOL_STATE_ID (Some (set_rebalancing q 0))).
  split; [split; reflexivity|]. split; [exists hi; exact Hv|].
  split.
  { unfold recorded, the_list. cbn [w_list put_rec]. rewrite Hlz'. erewrite nth_error_replace_same; eauto. }
  assert (Eq : total_sol_value q = total_sol_value ps0).
  { assert (q = pse) by congruence. subst. rewrite <- FP. destruct pse; reflexivity. }
  unfold total at 1, recorded, the_pool, the_list. cbn [w_pool put_rec]. rewrite Hpz'.
  unfold total, the_pool. rewrite P0. rewrite <- FL, Hlz, Hnz. cbn. lia.
Qed.

(* the example history's rebalance: 10000 MA leave, 5000 MB come in from outside, the end succeeds with a
   larger total; without the deposit the end is refused *)
Example C12_case :
  process D0 E0 (reb_ctx 0) W8 start_accs (StartRebalance start_args) = Ok W9 /\
  steps_within D0 pool_is_rebalancing W9 W10 /\
  process D0 E0 (reb_ctx 1) W10 end_accs EndRebalance = Ok W11 /\
  total W9 < total W8 /\ total W8 <= total W11 /\
  process D0 E0 (reb_ctx 1) W9 end_accs EndRebalance = Err (Ctl PoolWouldLoseSolValue).
Proof.
  split; [apply okb_get; vm_compute; reflexivity|].
  split.
  { eapply within_cons; [apply within_refl, W9_rebalancing| |].
    - apply step_external. eapply transfer_external with (amt := 5000) (s := true) (auth := USER).
      + apply base_u64. exact (proj1 (reachable_inv D0 D0_ok _ W9_reach)).
      + exact (proj1 (reachable_ata D0 D0_ok _ W9_reach)).
      + lia.
      + unfold USER. cbn. unfold POOL_STATE_ID, LST_STATE_LIST_ID, DISABLE_POOL_AUTHORITY_LIST_ID,
          REBALANCE_RECORD_ID, PROTOCOL_FEE_ID. intuition lia.
      + apply okb_get. vm_compute. reflexivity.
    - exists (match the_pool W10 with Some p => p | None => mkPool 0 0 0 0 0 0 0 0 0 0 0 end).
      split; [vm_compute; reflexivity|]. vm_compute. discriminate. }
  split; [apply okb_get; vm_compute; reflexivity|].
  split; [vm_compute; reflexivity|]. split; [vm_compute; discriminate|]. vm_compute. reflexivity.
Qed.
