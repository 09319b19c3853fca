(** C65: a larger order never does worse. *)
From Coq Require Import ZArith List Bool Lia.
From Verif Require Import Base Ratio Calc State Controller Spec InvProofs AdminSpec TradeSpec PropTrade Periph PeriphSpec PeriphProofs PropCalc Deploy DeploySpec
  DeployProofs Concrete ConcreteReach HistProofs ImpactSpec PropImpact MoreSpec.
Import ListNotations.
Open Scope Z_scope.

Lemma minted_moves w lp to n w' : minted w lp to n w' ->
  (forall m, supply w' m = supply w m + on m lp n) /\ forall k, balance w' k = balance w k + on k to n.
Proof.
  intros [t mi (Ht & _) Hm _ _]. split; intros x.
  - unfold supply, put_mint, put_tok, upd, on. cbn [w_mint]. destruct (Z.eqb_spec x lp) as [->|]; [rewrite Hm; cbn|]; lia.
  - unfold balance, put_mint, put_tok, upd, on. cbn [w_tok]. destruct (Z.eqb_spec x to) as [->|]; [rewrite Ht; cbn|]; lia.
Qed.
Lemma burned_moves w lp from who n w' : burned w lp from who n w' ->
  (forall m, supply w' m = supply w m - on m lp n) /\ forall k, balance w' k = balance w k - on k from n.
Proof.
  intros [t mi (Ht & _) _ Hm _ _]. split; intros x.
  - unfold supply, put_mint, put_tok, upd, on. cbn [w_mint]. destruct (Z.eqb_spec x lp) as [->|]; [rewrite Hm; cbn|]; lia.
  - unfold balance, put_mint, put_tok, upd, on. cbn [w_tok]. destruct (Z.eqb_spec x from) as [->|]; [rewrite Ht; cbn|]; lia.
Qed.
Lemma liq_keys D w ps m who la lp accs more : passes accs (liq_asks D w ps m who la lp) more ->
  key_at accs 1 = m /\ key_at accs 2 = la /\ key_at accs 3 = lp /\ key_at accs 4 = lp_token_mint ps /\
  key_at accs 5 = accumulator_key D w m /\ key_at accs 10 = reserves_key D w m /\ more = skipn 11 accs.
Proof.
  intros (used & -> & F). assert (Hl : length used = length (liq_asks D w ps m who la lp)) by (clear - F; induction F; cbn [length]; congruence).
  apply meets_keys in F. rewrite !key_at_map, map_app, F.
  cbn [liq_asks map ask_key reads writes signs app nth]. repeat (split; [reflexivity|]).
  cbn [liq_asks length] in Hl. change 11%nat with (0 + 11)%nat. rewrite <- Hl, skipn_app, skipn_all2, Nat.sub_diag by lia. reflexivity.
Qed.
Lemma lgroups_same more n ps ls ms mp ps' ls' ms' mp' :
  liq_groups more n ps ls ms mp -> liq_groups more n ps' ls' ms' mp' ->
  sol_value_calculator ls = sol_value_calculator ls' /\ pricing_program ps = pricing_program ps' /\ ms = ms' /\ mp = mp'.
Proof.
  intros (gs & gp & -> & Ls & Cs & Cp) (gs' & gp' & Eq & Ls' & Cs' & Cp').
  apply app_same in Eq as (-> & ->); [|lia].
  destruct (calls_same _ _ _ _ _ Cs Cs') as (-> & ->). destruct (calls_same _ _ _ _ _ Cp Cp') as (-> & ->). auto.
Qed.
Lemma measured_one D E w i more w1 w2 : measured D E w i more w1 -> measured D E w i more w2 -> w1 = w2.
Proof.
  intros [ps b ls a v hi P L I V _ _ _] [ps' b' ls' a' v' hi' P' L' I' V' _ _ _].
  assert (ps' = ps) by congruence. subst ps'. assert (Eq : b ++ ls :: a = b' ++ ls' :: a') by congruence.
  apply app_same in Eq as (-> & Eq); [|lia]. injection Eq as <- <-. assert (F : (v, hi) = (v', hi')) by congruence. injection F as <- <-. reflexivity.
Qed.
Lemma shares_rise S T x y : 0 <= S -> 0 <= T -> x <= y -> shares_for S T x <= shares_for S T y.
Proof.
  intros HS HT Hx. unfold shares_for. destruct (S =? 0); [lia|]. destruct (Z.eqb_spec T 0); [lia|].
  apply Z.div_le_mono; nia.
Qed.
Lemma worth_rise S T x y : 0 <= S -> 0 <= T -> x <= y -> worth_of S T x <= worth_of S T y.
Proof.
  intros HS HT Hx. unfold worth_of. destruct (Z.eqb_spec S 0); [lia|]. apply Z.div_le_mono; nia.
Qed.
Lemma worth_pos S T x : 0 <= S -> 0 <= T -> 0 <= x -> 0 <= worth_of S T x.
Proof. intros. unfold worth_of. destruct (Z.eqb_spec S 0); [lia|]. apply Z.div_pos; nia. Qed.

Section More.
Context (D : Derive) (HD : derive_ok D) (E : Env) (HE : growing E).

Lemma wf_of C w accs ix w' : process D E C w accs ix = Ok w' -> ix_wfb ix = true.
Proof. intros H. unfold process in H. apply guard_ok in H as (H & _). exact H. Qed.

(** Two swaps of the same LSTs, through the same accounts, possibly in different states of the pool: who gives more gets no
    less. *)
Theorem C65_exact_in C1 C2 w1 w2 accs n m i1 j1 min1 a1 i2 j2 min2 a2 w1' w2' : reachable D w1 -> reachable D w2 -> a1 <= a2 ->
  process D E C1 w1 accs (SwapExactIn (mkSwapIn n m i1 j1 min1 a1)) = Ok w1' ->
  process D E C2 w2 accs (SwapExactIn (mkSwapIn n m i2 j2 min2 a2)) = Ok w2' ->
  exists out1 fee1 out2 fee2, settles w1 w1' accs a1 out1 fee1 /\ settles w2 w2' accs a2 out2 fee2 /\ out1 <= out2.
Proof.
  intros R1 R2 Ha P1 P2. pose proof (wf_of _ _ _ _ _ P1) as W1. pose proof (wf_of _ _ _ _ _ P2) as W2.
  destruct (C49_only_permitted D HD E C1 w1 R1 (SwapExactIn _) accs w1' eq_refl P1) as (asked1 & more1 & T1 & A1).
  destruct (C49_only_permitted D HD E C2 w2 R2 (SwapExactIn _) accs w2' eq_refl P2) as (asked2 & more2 & T2 & A2).
  clear P1 P2. inversion T1; subst. inversion T2; subst.
  match goal with Q1 : swap_settled _ _ ?x1 _ _ _ _ _ _ _ _ _ _ _ _ w1', Q2 : swap_settled _ _ ?x2 _ _ _ _ _ _ _ _ _ _ _ _ w2' |- _ => destruct (HE x1 x2) as (E1 & E2 & E3 & E4 & _) end.
  destruct (swap_keys _ _ _ _ _ _ _ _ _ A1) as (_ & S1 & D1 & _ & _ & _ & _ & _ & M1).
  destruct (swap_keys _ _ _ _ _ _ _ _ _ A2) as (_ & S2 & D2 & _ & _ & _ & _ & _ & M2). rewrite M1, M2 in *.
  match goal with G1 : swap_groups _ _ _ ps _ _ _ _ _, G2 : swap_groups _ _ _ ps0 _ _ _ _ _ |- _ =>
    destruct (groups_same _ _ _ _ _ _ _ _ _ _ _ _ _ _ _ G1 G2) as (Q1 & Q2 & Q3 & <- & <- & <-) end.
  assert (Es : ls_mint s0 = ls_mint s) by congruence. assert (Ed : ls_mint d0 = ls_mint d) by congruence.
  rewrite <- Q1, <- Q2, <- Q3, Es, Ed in *.
  assert (Ha1 : 0 <= a1). { cbn [ix_wfb] in W1. repeat rewrite andb_true_iff in W1. cbn in W1. rewrite ?U64_spec in W1. unfold U64 in W1. lia. }
  exists out. eexists. exists out0. eexists.
  split; [eapply settles_at; [eassumption|eassumption|eassumption|]; eassumption|].
  split; [eapply settles_at; [eassumption|eassumption|eassumption|]; rewrite ?Es, ?Ed; eassumption|].
  assert (0 <= in_sol /\ in_sol <= in_sol0) as (I0 & I1).
  { split; [match goal with U : U64 in_sol |- _ => apply U end|]. match goal with X : e_lst_to_sol E _ _ _ _ _ = Ok (in_sol, _), Y : e_lst_to_sol E _ _ _ _ _ = Ok (in_sol0, _) |- _ => assert (HL := fun H => E1 _ _ _ _ _ _ _ _ _ H X Y); lia end. }
  assert (0 <= out_sol /\ out_sol <= out_sol0) as (O0 & O1).
  { split; [match goal with U : U64 out_sol |- _ => apply U end|]. eapply E3; [| |eassumption|eassumption]; lia. }
  match goal with X : e_sol_to_lst E _ _ _ _ _ = Ok (out, _), Y : e_sol_to_lst E _ _ _ _ _ = Ok (out0, _) |- _ => assert (HL := fun H => E2 _ _ _ _ _ _ _ _ _ H X Y); lia end.
Qed.

(** Who is to get more, gives no less. *)
Theorem C65_exact_out C1 C2 w1 w2 accs n m i1 j1 max1 a1 i2 j2 max2 a2 w1' w2' : reachable D w1 -> reachable D w2 -> a1 <= a2 ->
  process D E C1 w1 accs (SwapExactOut (mkSwapOut n m i1 j1 max1 a1)) = Ok w1' ->
  process D E C2 w2 accs (SwapExactOut (mkSwapOut n m i2 j2 max2 a2)) = Ok w2' ->
  exists pay1 fee1 pay2 fee2, settles w1 w1' accs pay1 a1 fee1 /\ settles w2 w2' accs pay2 a2 fee2 /\ pay1 <= pay2.
Proof.
  intros R1 R2 Ha P1 P2. pose proof (wf_of _ _ _ _ _ P1) as W1. pose proof (wf_of _ _ _ _ _ P2) as W2.
  destruct (C49_only_permitted D HD E C1 w1 R1 (SwapExactOut _) accs w1' eq_refl P1) as (asked1 & more1 & T1 & A1).
  destruct (C49_only_permitted D HD E C2 w2 R2 (SwapExactOut _) accs w2' eq_refl P2) as (asked2 & more2 & T2 & A2).
  clear P1 P2. inversion T1; subst. inversion T2; subst.
  match goal with Q1 : swap_settled _ _ ?x1 _ _ _ _ _ _ _ _ _ _ _ _ w1', Q2 : swap_settled _ _ ?x2 _ _ _ _ _ _ _ _ _ _ _ _ w2' |- _ => destruct (HE x1 x2) as (E1 & E2 & E3 & E4 & _) end.
  destruct (swap_keys _ _ _ _ _ _ _ _ _ A1) as (_ & S1 & D1 & _ & _ & _ & _ & _ & M1).
  destruct (swap_keys _ _ _ _ _ _ _ _ _ A2) as (_ & S2 & D2 & _ & _ & _ & _ & _ & M2). rewrite M1, M2 in *.
  match goal with G1 : swap_groups _ _ _ ps _ _ _ _ _, G2 : swap_groups _ _ _ ps0 _ _ _ _ _ |- _ =>
    destruct (groups_same _ _ _ _ _ _ _ _ _ _ _ _ _ _ _ G1 G2) as (Q1 & Q2 & Q3 & <- & <- & <-) end.
  assert (Es : ls_mint s0 = ls_mint s) by congruence. assert (Ed : ls_mint d0 = ls_mint d) by congruence.
  rewrite <- Q1, <- Q2, <- Q3, Es, Ed in *.
  assert (Ha1 : 0 <= a1). { cbn [ix_wfb] in W1. repeat rewrite andb_true_iff in W1. cbn in W1. rewrite ?U64_spec in W1. unfold U64 in W1. lia. }
  exists pay. eexists. exists pay0. eexists.
  split; [eapply settles_at; [eassumption|eassumption|eassumption|]; eassumption|].
  split; [eapply settles_at; [eassumption|eassumption|eassumption|]; rewrite ?Es, ?Ed; eassumption|].
  assert (0 <= out_sol /\ out_sol <= out_sol0) as (I0 & I1).
  { split; [match goal with U : U64 out_sol |- _ => apply U end|]. match goal with X : e_lst_to_sol E _ _ _ _ _ = Ok (_, out_sol), Y : e_lst_to_sol E _ _ _ _ _ = Ok (_, out_sol0) |- _ => assert (HL := fun H => E1 _ _ _ _ _ _ _ _ _ H X Y); lia end. }
  assert (0 <= in_sol /\ in_sol <= in_sol0) as (O0 & O1).
  { split; [match goal with U : U64 in_sol |- _ => apply U end|]. eapply E4; [| |eassumption|eassumption]; lia. }
  match goal with X : e_sol_to_lst E _ _ _ _ _ = Ok (_, pay), Y : e_sol_to_lst E _ _ _ _ _ = Ok (_, pay0) |- _ => assert (HL := fun H => E2 _ _ _ _ _ _ _ _ _ H X Y); lia end.
Qed.

Lemma measured_sound w i ms w1 ps l : reachable D w -> the_pool w = Some ps -> the_list w = Some l -> measured D E w i ms w1 ->
  0 <= total w1 /\ forall m, 0 <= supply w1 m.
Proof.
  intros Hr Hp Hl H. destruct (start_within D HD w Hr ps l Hp Hl) as (HW & _). apply (measured_within _ _ _ _ _ _ _ _ _ HW) in H.
  destruct H as [(ps1 & l1 & P1 & _ & _ & _ & U & _) _ _ _ _ (_ & Us)]. split.
  - unfold total. rewrite P1. apply U.
  - intros m. unfold supply. destruct (w_mint w1 m) as [mi|] eqn:Hm; [|lia]. apply Us in Hm. unfold U64 in Hm. tauto.
Qed.

(** Two deposits of the same LST in the same state: who deposits more gets no fewer LP tokens. *)
Theorem C65_deposit C1 C2 w accs n i a1 min1 a2 min2 w1' w2' : reachable D w -> a1 <= a2 ->
  process D E C1 w accs (AddLiquidity (mkAddLiq n i a1 min1)) = Ok w1' ->
  process D E C2 w accs (AddLiquidity (mkAddLiq n i a2 min2)) = Ok w2' ->
  exists fee1 lp1 fee2 lp2, deposits w w1' accs a1 fee1 lp1 /\ deposits w w2' accs a2 fee2 lp2 /\ lp1 <= lp2.
Proof.
  intros R Ha P1 P2. pose proof (wf_of _ _ _ _ _ P1) as W1. pose proof (wf_of _ _ _ _ _ P2) as W2.
  destruct (C49_only_permitted D HD E C1 w R (AddLiquidity _) accs w1' eq_refl P1) as (asked1 & more1 & T1 & A1).
  destruct (C49_only_permitted D HD E C2 w R (AddLiquidity _) accs w2' eq_refl P2) as (asked2 & more2 & T2 & A2).
  clear P1 P2. inversion T1; subst. inversion T2; subst.
  match goal with X : the_pool w = Some ps, Y : the_pool w = Some ps0 |- _ => assert (ps0 = ps) by congruence; subst ps0 end.
  match goal with X : the_list w = Some l, Y : the_list w = Some l0 |- _ => assert (l0 = l) by congruence; subst l0 end.
  match goal with X : nth_error l _ = Some ls, Y : nth_error l _ = Some ls0 |- _ => assert (ls0 = ls) by congruence; subst ls0 end.
  destruct (liq_keys _ _ _ _ _ _ _ _ _ A1) as (_ & K2 & K3 & K4 & K5 & K10 & M1).
  destruct (liq_keys _ _ _ _ _ _ _ _ _ A2) as (_ & K2' & K3' & _ & _ & _ & M2). rewrite M1, M2 in *.
  match goal with G1 : liq_groups _ _ _ _ ms mp, G2 : liq_groups _ _ _ _ ms0 mp0 |- _ =>
    destruct (lgroups_same _ _ _ _ _ _ _ _ _ _ G1 G2) as (_ & _ & <- & <-) end.
  match goal with X : measured _ _ w _ _ w1, Y : measured _ _ w _ _ w0 |- _ => pose proof (measured_one _ _ _ _ _ _ _ X Y); subst w0; rename X into MM; clear Y end.
  assert (Ha1 : 0 <= a1). { cbn [ix_wfb] in W1. repeat rewrite andb_true_iff in W1. cbn in W1. rewrite ?U64_spec in W1. unfold U64 in W1. lia. }
  assert (HS : 0 <= total w1 /\ forall m, 0 <= supply w1 m) by (eapply measured_sound; eassumption).
  destruct HS as (HT & HS). destruct (HE w1 w1) as (E1 & _ & _ & _ & E5 & _).
  assert (Hall : forall w2 w3 w4 w' from to who fee a sh, key_at accs 2 = from -> key_at accs 3 = to ->
    paid w1 (ls_mint ls) from (reserves_key D w (ls_mint ls)) who (a - fee) w2 ->
    paid w2 (ls_mint ls) from (accumulator_key D w (ls_mint ls)) who fee w3 ->
    minted w3 (lp_token_mint ps) to sh w4 -> measured D E w4 i ms w' -> deposits w w' accs a fee sh).
  { intros x2 x3 x4 x' from' to' who' fee a sh <- <- Q1 Q2 Q3 Q4. apply measured_moves in MM as (N0 & B0).
    apply paid_moves in Q1 as (N1 & B1). apply paid_moves in Q2 as (N2 & B2). apply minted_moves in Q3 as (N3 & B3).
    apply measured_moves in Q4 as (N4 & B4). split.
    - intros mm. unfold supply at 1. rewrite N4. fold (supply x4 mm). rewrite N3, K4. unfold supply. rewrite N2, N1, N0. reflexivity.
    - intros k. rewrite B4, B3, B2, B1, B0, K5, K10. unfold on. destruct (k =? key_at accs 2); lia. }
  eexists. eexists. eexists. eexists. split; [eapply Hall; [exact K2|exact K3|eassumption..]|]. split; [eapply Hall; [exact K2'|exact K3'|eassumption..]|].
  assert (value <= value0) by (match goal with X : e_lst_to_sol E _ _ _ _ _ = Ok (value, _), Y : e_lst_to_sol E _ _ _ _ _ = Ok (value0, _) |- _ => assert (HL := fun H => E1 _ _ _ _ _ _ _ _ _ H X Y); lia end).
  assert (net <= net0). { eapply E5; [| |eassumption|eassumption]; [lia|]. match goal with U : U64 value |- _ => destruct U end. lia. }
  apply shares_rise; auto.
Qed.

(** Two redemptions for the same LST in the same state: who redeems more gets no less. *)
Theorem C65_redemption C1 C2 w accs n i a1 min1 a2 min2 w1' w2' : reachable D w -> a1 <= a2 ->
  process D E C1 w accs (RemoveLiquidity (mkRemLiq n i a1 min1)) = Ok w1' ->
  process D E C2 w accs (RemoveLiquidity (mkRemLiq n i a2 min2)) = Ok w2' ->
  exists out1 fee1 out2 fee2, redeems w w1' accs a1 out1 fee1 /\ redeems w w2' accs a2 out2 fee2 /\ out1 <= out2.
Proof.
  intros R Ha P1 P2. pose proof (wf_of _ _ _ _ _ P1) as W1. pose proof (wf_of _ _ _ _ _ P2) as W2.
  destruct (C49_only_permitted D HD E C1 w R (RemoveLiquidity _) accs w1' eq_refl P1) as (asked1 & more1 & T1 & A1).
  destruct (C49_only_permitted D HD E C2 w R (RemoveLiquidity _) accs w2' eq_refl P2) as (asked2 & more2 & T2 & A2).
  clear P1 P2. inversion T1; subst. inversion T2; subst.
  match goal with X : the_pool w = Some ps, Y : the_pool w = Some ps0 |- _ => assert (ps0 = ps) by congruence; subst ps0 end.
  match goal with X : the_list w = Some l, Y : the_list w = Some l0 |- _ => assert (l0 = l) by congruence; subst l0 end.
  match goal with X : nth_error l _ = Some ls, Y : nth_error l _ = Some ls0 |- _ => assert (ls0 = ls) by congruence; subst ls0 end.
  destruct (liq_keys _ _ _ _ _ _ _ _ _ A1) as (_ & K2 & K3 & K4 & K5 & K10 & M1).
  destruct (liq_keys _ _ _ _ _ _ _ _ _ A2) as (_ & K2' & K3' & _ & _ & _ & M2). rewrite M1, M2 in *.
  match goal with G1 : liq_groups _ _ _ _ ms mp, G2 : liq_groups _ _ _ _ ms0 mp0 |- _ =>
    destruct (lgroups_same _ _ _ _ _ _ _ _ _ _ G1 G2) as (_ & _ & <- & <-) end.
  match goal with X : measured _ _ w _ _ w1, Y : measured _ _ w _ _ w0 |- _ => pose proof (measured_one _ _ _ _ _ _ _ X Y); subst w0; rename X into MM; clear Y end.
  assert (Ha1 : 0 <= a1). { cbn [ix_wfb] in W1. repeat rewrite andb_true_iff in W1. cbn in W1. rewrite ?U64_spec in W1. unfold U64 in W1. lia. }
  assert (HS : 0 <= total w1 /\ forall m, 0 <= supply w1 m) by (eapply measured_sound; eassumption).
  destruct HS as (HT & HS). destruct (HE w1 w1) as (_ & E2 & _ & _ & _ & E6).
  assert (Hall : forall w2 w3 w4 w' from to who fee a sh, key_at accs 2 = to -> key_at accs 3 = from ->
    burned w1 (lp_token_mint ps) from who sh w2 ->
    paid w2 (ls_mint ls) (reserves_key D w (ls_mint ls)) to POOL_STATE_ID a w3 ->
    paid w3 (ls_mint ls) (reserves_key D w (ls_mint ls)) (accumulator_key D w (ls_mint ls)) POOL_STATE_ID fee w4 ->
    measured D E w4 i ms w' -> redeems w w' accs sh a fee).
  { intros x2 x3 x4 x' from' to' who' fee a sh <- <- Q1 Q2 Q3 Q4. apply measured_moves in MM as (N0 & B0).
    apply burned_moves in Q1 as (N1 & B1). apply paid_moves in Q2 as (N2 & B2). apply paid_moves in Q3 as (N3 & B3).
    apply measured_moves in Q4 as (N4 & B4). split.
    - intros mm. unfold supply at 1. rewrite N4, N3, N2. fold (supply x2 mm). rewrite N1, K4. unfold supply. rewrite N0. reflexivity.
    - intros k. rewrite B4, B3, B2, B1, B0, K5, K10. unfold on. destruct (k =? reserves_key D w (ls_mint ls)); lia. }
  eexists. eexists. eexists. eexists. split; [eapply Hall; [exact K2|exact K3|eassumption..]|]. split; [eapply Hall; [exact K2'|exact K3'|eassumption..]|].
  set (S := supply w1 (lp_token_mint ps)) in *.
  assert (net <= net0).
  { eapply E6; [| |eassumption|eassumption]; [lia|]. split; [apply worth_pos; auto|apply worth_rise; auto]. apply HS. apply HS. }
  match goal with X : e_sol_to_lst E _ _ _ _ _ = Ok (out, _), Y : e_sol_to_lst E _ _ _ _ _ = Ok (out0, _) |- _ => assert (HL := fun H => E2 _ _ _ _ _ _ _ _ _ H X Y); lia end.
Qed.
End More.

(** ** The shipped programs *)
Lemma floor_rises n d x y r r' : 0 <= n -> 0 <= d -> x <= y -> floor_apply n d x = Ok r -> floor_apply n d y = Ok r' -> r <= r'.
Proof.
  intros Hn Hd Hx. unfold floor_apply. destruct ((n =? 0) || (d =? 0)) eqn:Z0; [intros [= <-] [= <-]; lia|].
  apply orb_false_iff in Z0 as (Zn & Zd). rewrite Z.eqb_neq in *.
  intros H1 H2. destruct (_ <=? U64_MAX) in H1; [|discriminate]. destruct (_ <=? U64_MAX) in H2; [|discriminate].
  assert (r = x * n / d) by congruence. assert (r' = y * n / d) by congruence. subst. apply Z.div_le_mono; nia.
Qed.
Lemma ceil_fee_rises n d x y r r' : 0 <= d -> x <= y -> ceil_fee_after n d x = Ok r -> ceil_fee_after n d y = Ok r' -> r <= r'.
Proof.
  intros Hd Hx. unfold ceil_fee_after, ceil_fee_charged. destruct (Z.ltb_spec d n) as [|Hnd]; [discriminate|].
  destruct ((n =? 0) || (d =? 0)) eqn:Z0; cbn [bind]; intros H1 H2.
  - assert (r = x - 0) by congruence. assert (r' = y - 0) by congruence. lia.
  - apply orb_false_iff in Z0 as (Zn & Zd). rewrite Z.eqb_neq in *.
    assert (r = x - ceil_div (x * n) d) by congruence. assert (r' = y - ceil_div (y * n) d) by congruence. subst.
    rewrite !ceil_fee_rest by lia. apply Z.div_le_mono; nia.
Qed.

Section ShippedMore.
Context (R : RatioLib) (HR : ratio_lib_ok R) (HL : library_rises R).

Lemma sol_to_lst_rises c : calc_typed c -> rises (calc_sol_to_lst R c) (calc_sol_to_lst R c).
Proof.
  destruct HL as (L1 & L2 & L3). destruct HR as (_ & _ & _ & B1 & B2 & B3).
  assert (T : forall a b lo hi, try_from_min_max a b = Ok (lo, hi) -> lo = a /\ hi = b).
  { unfold try_from_min_max. intros a b lo hi H. apply guard_ok in H as (_ & H). split; congruence. }
  intros Ht x y lo hi lo' hi' Hx H1 H2. destruct c as [|p|p|p]; cbn [calc_sol_to_lst calc_typed] in *; unfold U64 in Ht.
  - unfold wsol_sol_to_lst, single in *. assert (lo = x /\ hi = x /\ lo' = y /\ hi' = y) by (repeat split; congruence). lia.
  - unfold spl_sol_to_lst in *. apply bind_ok in H1 as ((r1 & r2) & Q1 & H1). apply bind_ok in H2 as ((t1 & t2) & Q2 & H2).
    apply guard_ok in H1 as (_ & H1). apply guard_ok in H2 as (_ & H2). cbn [fst snd] in *.
    apply bind_ok in H1 as ((a1 & a2) & A1 & H1). apply bind_ok in H1 as ((b1 & b2) & A2 & H1).
    apply bind_ok in H2 as ((c1 & c2) & A3 & H2). apply bind_ok in H2 as ((d1 & d2) & A4 & H2). cbn [fst snd] in *.
    apply T in H1 as (-> & ->). apply T in H2 as (-> & ->).
    destruct (L1 (sp_total_lamports p) (sp_pool_token_supply p) ltac:(lia) ltac:(lia) _ _ _ _ _ _ Hx Q1 Q2) as (X1 & X2). destruct (B1 _ _ _ _ _ Q1) as (U1 & U2 & _). unfold U64 in U1, U2.
    destruct (L2 (sp_fee_num p) (sp_fee_denom p) ltac:(lia) ltac:(lia) _ _ _ _ _ _ (conj (proj1 U1) X1) A1 A3) as (X3 & _).
    destruct (L2 (sp_fee_num p) (sp_fee_denom p) ltac:(lia) ltac:(lia) _ _ _ _ _ _ (conj (proj1 U2) X2) A2 A4) as (_ & X4). auto.
  - unfold lido_sol_to_lst in *. exact (L1 (li_sol_balance p) (li_st_sol_supply p) ltac:(lia) ltac:(lia) _ _ _ _ _ _ Hx H1 H2).
  - unfold marinade_sol_to_lst in *. apply guard_ok in H1 as (_ & H1). apply guard_ok in H2 as (_ & H2).
    apply bind_ok in H1 as ((r1 & r2) & Q1 & H1). apply bind_ok in H2 as ((t1 & t2) & Q2 & H2). cbn [fst snd] in *.
    apply bind_ok in H1 as (tot & V1 & H1). apply bind_ok in H2 as (tot' & V2 & H2). assert (tot' = tot) by congruence. subst tot'.
    assert (Htot : 0 <= tot).
    { unfold total_virtual_staked_lamports in V1. apply bind_ok in V1 as (q1 & _ & V1). apply bind_ok in V1 as (q2 & _ & V1). apply bind_ok in V1 as (q3 & _ & V1).
      assert (tot = sat_sub q3 (ma_circulating_ticket_balance p)) as -> by congruence. unfold sat_sub. destruct (Z.leb_spec (ma_circulating_ticket_balance p) q3); lia. }
    apply bind_ok in H1 as ((a1 & a2) & A1 & H1). apply bind_ok in H1 as ((b1 & b2) & A2 & H1).
    apply bind_ok in H2 as ((c1 & c2) & A3 & H2). apply bind_ok in H2 as ((d1 & d2) & A4 & H2). cbn [fst snd] in *.
    apply T in H1 as (-> & ->). apply T in H2 as (-> & ->).
    destruct (L3 (ma_fee_cents p) MAX_BP_CENTS ltac:(lia) ltac:(unfold MAX_BP_CENTS; lia) _ _ _ _ _ _ Hx Q1 Q2) as (X1 & X2). destruct (B3 _ _ _ _ _ Q1) as (U1 & U2 & _). unfold U64 in U1, U2.
    destruct (L1 tot (ma_msol_supply p) ltac:(lia) ltac:(lia) _ _ _ _ _ _ (conj (proj1 U1) X1) A1 A3) as (X3 & _).
    destruct (L1 tot (ma_msol_supply p) ltac:(lia) ltac:(lia) _ _ _ _ _ _ (conj (proj1 U2) X2) A2 A4) as (_ & X4). auto.
Qed.

Lemma calc_rises dp pw prog mint accs (f g : Z -> res (Z * Z)) (k : Z -> CalcIx) : pools_typed pw ->
  k = LstToSol \/ k = SolToLst -> rises f g ->
  rises (fun x => calc_answer R dp pw (f x) prog mint accs (k x)) (fun x => calc_answer R dp pw (g x) prog mint accs (k x)).
Proof.
  intros HT Hk Hfg x y lo hi lo' hi' Hx. unfold calc_answer. destruct (prog =? dp_wsol dp).
  - intros H1 H2. apply C23_wsol in H1 as (_ & _ & x1 & K1 & V1). apply C23_wsol in H2 as (_ & _ & y1 & K2 & V2).
    assert (x1 = x) by (destruct Hk as [-> | ->], K1; congruence). assert (y1 = y) by (destruct Hk as [-> | ->], K2; congruence).
    injection V1 as -> ->. injection V2 as -> ->. lia.
  - destruct (calc_cfg dp prog) as [cfg|]; [|apply Hfg; exact Hx].
    intros H1 H2. apply bind_ok in H1 as ((p1 & r1) & H1 & G1). apply bind_ok in H2 as ((p2 & r2) & H2 & G2).
    apply of_option_ok in G1 as ->. apply of_option_ok in G2 as ->.
    destruct Hk as [-> | ->]; cbn [calc_process] in H1, H2; apply bind_ok in H1 as (c1 & C1 & H1); apply bind_ok in H2 as (c2 & C2 & H2);
      assert (c2 = c1) by congruence; subst c2; apply bind_ok in H1 as (v1 & V1 & H1); apply bind_ok in H2 as (v2 & V2 & H2);
      assert (v1 = (lo, hi)) by congruence; assert (v2 = (lo', hi')) by congruence; subst v1 v2.
    + apply verify_common_iff in C1. pose proof (pool_of_typed _ _ _ _ HT (q_pool _ _ _ _ C1)) as Ht.
      apply calc_lst_to_sol_any in V1 as (A1 & V1); auto. apply calc_lst_to_sol_any in V2 as (A2 & V2); auto.
      injection V1 as -> ->. injection V2 as -> ->. pose proof (worth_mono c1 x y Ht (answers_fee _ _ A1) (proj2 Hx)). auto.
    + apply verify_common_iff in C1. pose proof (pool_of_typed _ _ _ _ HT (q_pool _ _ _ _ C1)) as Ht. eapply sol_to_lst_rises; eassumption.
Qed.

Lemma map_err_ok {A} e (m : res A) v : map_err e m = Ok v -> m = Ok v.
Proof. destruct m; cbn; congruence. Qed.
Lemma price_rises dp pw prog accs (f g : Z -> Z -> res Z) (k : Z -> Z -> FlatIx) :
  k = PriceExactIn \/ k = PriceExactOut \/ k = PriceLpTokensToMint \/ k = PriceLpTokensToRedeem -> rises2 f g ->
  rises2 (fun a x => price_answer R dp pw (f a x) prog accs (k a x)) (fun a x => price_answer R dp pw (g a x) prog accs (k a x)).
Proof.
  intros Hk Hfg a b x y r r' Ha Hx. unfold price_answer. destruct (prog =? ff_id (dp_flat dp)).
  - intros H1 H2. apply bind_ok in H1 as ((p1 & r1) & H1 & G1). apply bind_ok in H2 as ((p2 & r2) & H2 & G2).
    apply of_option_ok in G1 as ->. apply of_option_ok in G2 as ->. destruct HL as (L1 & _). destruct HR as (_ & _ & _ & B1 & _).
    destruct Hk as [-> |[-> |[-> | ->]]]; cbn [flat_process] in H1, H2; apply bind_ok in H1 as (v1 & V1 & H1); apply bind_ok in H2 as (v2 & V2 & H2);
      assert (v1 = r) by congruence; assert (v2 = r') by congruence; subst v1 v2.
    + unfold process_price_exact_in in *. apply bind_ok in V1 as (f1 & F1 & V1). apply bind_ok in V2 as (f2 & F2 & V2).
      assert (f2 = f1) by congruence. subst f2. unfold calculate_price_exact_in in *.
      apply bind_ok in V1 as (o1 & O1 & V1). apply bind_ok in V2 as (o2 & O2 & V2). assert (o2 = o1) by congruence. subst o2.
      unfold out_sol_value_ratio in O1. apply guard_ok in O1 as (_ & O1). apply guard_ok in O1 as (K & O1). apply andb_true_iff in K as (_ & K). apply Z.leb_le in K.
      assert (0 <= o1) by (assert (o1 = 10000 - (fst f1 + snd f1)) by congruence; lia). apply map_err_ok in V1, V2.
      eapply floor_rises; [| | |exact V1|exact V2]; [lia|unfold BPS_DENOMINATOR; lia|lia].
    + unfold process_price_exact_out in *. apply bind_ok in V1 as (f1 & F1 & V1). apply bind_ok in V2 as (f2 & F2 & V2).
      assert (f2 = f1) by congruence. subst f2. unfold calculate_price_exact_out in *.
      apply bind_ok in V1 as (o1 & O1 & V1). apply bind_ok in V2 as (o2 & O2 & V2). assert (o2 = o1) by congruence. subst o2.
      apply bind_ok in V1 as ((q1 & q2) & Q1 & V1). apply bind_ok in V2 as ((t1 & t2) & Q2 & V2). apply map_err_ok in Q1, Q2. cbn [snd] in *.
      assert (0 <= o1).
      { unfold out_sol_value_ratio in O1. apply guard_ok in O1 as (_ & O1). apply guard_ok in O1 as (K & O1). apply andb_true_iff in K as (_ & K). apply Z.leb_le in K.
        assert (o1 = 10000 - (fst f1 + snd f1)) by congruence. lia. }
      destruct (L1 o1 BPS_DENOMINATOR ltac:(lia) ltac:(unfold BPS_DENOMINATOR; lia) _ _ _ _ _ _ Hx Q1 Q2) as (_ & L). assert (r = q2) by congruence. assert (r' = t2) by congruence. lia.
    + unfold process_price_lp_tokens_to_mint in *. assert (r = x) by congruence. assert (r' = y) by congruence. lia.
    + unfold process_price_lp_tokens_to_redeem in *. destruct accs as [|m0 [|st rest]]; try discriminate.
      apply guard_ok in V1 as (_ & V1). apply guard_ok in V2 as (_ & V2).
      apply bind_ok in V1 as (s1 & S1 & V1). apply bind_ok in V2 as (s2 & S2 & V2). assert (s2 = s1) by congruence. subst s2.
      unfold calculate_price_lp_tokens_to_redeem in *. apply map_err_ok in V1, V2.
      eapply ceil_fee_rises; [| |exact V1|exact V2]; [unfold BPS_DENOMINATOR; lia|lia].
  - destruct (prog =? dp_nofee dp); [|apply Hfg; assumption].
    destruct Hk as [-> |[-> |[-> | ->]]]; cbn [nofee_process]; intros H1 H2; assert (r = x) by congruence; assert (r' = y) by congruence; lia.
Qed.

(** The shipped calculators and pricing programs answer more for more. *)
Theorem C65_shipped dp pw other : pools_typed pw -> growing other -> growing (deployed_env R dp pw other).
Proof.
  intros HT H w w'. destruct (H w w') as (H1 & H2 & H3 & H4 & H5 & H6). unfold deployed_env.
  cbn [e_lst_to_sol e_sol_to_lst e_price_exact_in e_price_exact_out e_price_lp_to_mint e_price_lp_to_redeem].
  split; [|split; [|split; [|split; [|split]]]]; intros.
  - apply calc_rises; auto.
  - apply calc_rises; auto.
  - apply price_rises; auto.
  - apply price_rises; auto.
  - apply price_rises; auto.
  - apply price_rises; auto.
Qed.
End ShippedMore.

(** The reference library does. *)
Lemma u64_pair_rises a b c d lo hi lo' hi' : a <= c -> b <= d -> u64_pair a b = Ok (lo, hi) -> u64_pair c d = Ok (lo', hi') -> lo <= lo' /\ hi <= hi'.
Proof. intros ? ? (-> & -> & _)%u64_pair_ok (-> & -> & _)%u64_pair_ok. auto. Qed.
Lemma ref_rises n d : rises (ref_reverse n d) (ref_reverse n d).
Proof.
  intros x y lo hi lo' hi' Hx. unfold ref_reverse. destruct ((n <=? 0) || (d <=? 0)) eqn:Z0.
  - intros [= <- <-] [= <- <-]. lia.
  - apply orb_false_iff in Z0 as (Zn & Zd). rewrite Z.leb_gt in *. apply u64_pair_rises; apply Z.div_le_mono; nia.
Qed.
Example C65_library : library_rises ref_ratio_lib.
Proof.
  split; [intros; apply ref_rises|]. split; intros n d Hn Hd x y lo hi lo' hi' Hx; cbn [ref_ratio_lib rl_ceil_fee_reverse rl_floor_fee_reverse].
  - unfold ref_ceil_fee_reverse. destruct ((n =? 0) || (d =? 0)); [apply u64_pair_rises; lia|]. apply ref_rises; assumption.
  - unfold ref_floor_fee_reverse. destruct ((n =? 0) || (d =? 0)) eqn:Z0; [apply u64_pair_rises; lia|].
    destruct (Z.leb_spec d n); [discriminate|]. apply u64_pair_rises; [apply Z.max_le_compat_l|]; apply Z.div_le_mono; nia.
Qed.

(** The case: larger and smaller orders in the example history. *)
Lemma E0_growing : growing E0.
Proof.
  intros w w'. cbn [E0 e_lst_to_sol e_sol_to_lst e_price_exact_in e_price_exact_out e_price_lp_to_mint e_price_lp_to_redeem].
  assert (R2 : forall (p : key) k l, 0 <= k -> rises2 (fun _ s => if p =? PP then Ok (s * k / 100) else Err ExternalErr) (fun _ s => if p =? PP then Ok (s * l / 100) else Err ExternalErr) \/ k <> l).
  { intros p k l Hk. destruct (Z.eq_dec k l) as [<-|]; [left|auto]. intros a b x y r r' _ Hx. destruct (p =? PP); [|discriminate].
    intros H1 H2. assert (r = x * k / 100) by congruence. assert (r' = y * k / 100) by congruence. subst. apply Z.div_le_mono; nia. }
  split; [|split; [|split; [|split; [|split]]]]; intros.
  - intros x y lo hi lo' hi' Hx. destruct (p =? CA); [|destruct (p =? CB); [|discriminate]]; intros H1 H2; [set (a := x) in *; set (b := y) in *|set (a := 2 * x) in *; set (b := 2 * y) in *]; assert (a <= b) by (subst a b; lia); clearbody a b; injection H1 as <- <-; injection H2 as <- <-; auto.
  - intros x y lo hi lo' hi' Hx. destruct (p =? CA); [|destruct (p =? CB); [|discriminate]]; intros H1 H2; injection H1 as <- <-; injection H2 as <- <-; [lia|].
    split; apply Z.div_le_mono; lia.
  - destruct (R2 p 99 99 ltac:(lia)) as [H|[]]; [exact H|reflexivity].
  - intros a b x y r r' _ Hx. destruct (p =? PP); [|discriminate]. intros H1 H2.
    assert (r = x * 100 / 99 + 1) by congruence. assert (r' = y * 100 / 99 + 1) by congruence. subst.
    pose proof (Z.div_le_mono (x * 100) (y * 100) 99 ltac:(lia) ltac:(lia)). lia.
  - destruct (R2 p 99 99 ltac:(lia)) as [H|[]]; [exact H|reflexivity].
  - destruct (R2 p 99 99 ltac:(lia)) as [H|[]]; [exact H|reflexivity].
Qed.
Definition got (w : World) (accs : list Meta) (ix : Ix) (k : key) : option Z :=
  match process D0 E0 C0 w accs ix with Ok w' => Some (balance w' k - balance w k) | Err _ => None end.
Example C65_case : derive_ok D0 /\ growing E0 /\ reachable D0 W5 /\ reachable D0 W8 /\
  got W5 swap_accs (SwapExactIn (mkSwapIn 1 1 0 1 0 100001)) UB = Some 49500 /\
  got W8 swap_accs (SwapExactIn (mkSwapIn 1 1 0 1 0 100100)) UB = Some 49549 /\
  got W5 swap_accs (SwapExactOut (mkSwapOut 1 1 0 1 1000000 49500)) UA = Some (-100001) /\
  got W8 swap_accs (SwapExactOut (mkSwapOut 1 1 0 1 1000000 49549)) UA = Some (-100099) /\
  got W4 (liq_accs MB UB FB SPL_TOKEN_2022_ID RB CB) (AddLiquidity (mkAddLiq 1 1 1000 0)) UL = Some 1962 /\
  got W4 (liq_accs MB UB FB SPL_TOKEN_2022_ID RB CB) (AddLiquidity (mkAddLiq 1 1 1001 0)) UL = Some 1963 /\
  got W7 (liq_accs MB UB FB SPL_TOKEN_2022_ID RB CB) (RemoveLiquidity (mkRemLiq 1 1 1000 0)) UB = Some 501 /\
  got W7 (liq_accs MB UB FB SPL_TOKEN_2022_ID RB CB) (RemoveLiquidity (mkRemLiq 1 1 1100 0)) UB = Some 551.
Proof.
  split; [exact D0_ok|]. split; [exact E0_growing|]. split; [exact W5_reach|]. split; [exact W8_reach|].
  vm_compute. repeat (split; [reflexivity|]). reflexivity.
Qed.
