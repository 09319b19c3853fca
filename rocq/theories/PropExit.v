(** C50: an LP holder can leave. While the pool runs, redeeming succeeds through any listed LST whose
    calculator answers and whose reserves suffice, and pays what C49's formulas say. *)
From Coq Require Import ZArith List Bool Lia.
From Verif Require Import Base Ratio Calc State Controller Inversion ProcInv Spec CalcProofs InvProofs
  TokProofs AccessProofs ShapeProofs MoneyProofs Concrete ConcreteReach PropState PropAccess PropSync AdminSpec
  PropAdmin TradeSpec PropTrade Periph Deploy.
Import ListNotations.
Open Scope Z_scope.

(** The programs' answers do not depend on the pool's and the token accounts' state (they are computed from the
    stake pools). *)
Definition steady (E : Env) : Prop := forall w w',
  e_lst_to_sol E w = e_lst_to_sol E w' /\ e_sol_to_lst E w = e_sol_to_lst E w' /\
  e_price_lp_to_redeem E w = e_price_lp_to_redeem E w'.

Lemma measured_can D E w i more ps l ls v hi : the_pool w = Some ps -> the_list w = Some l -> 0 <= i ->
  nth_error l (Z.to_nat i) = Some ls ->
  e_lst_to_sol E w (sol_value_calculator ls) (ls_mint ls) more (balance w (reserves_key D w (ls_mint ls))) = Ok (v, hi) ->
  U64 v -> U64 hi -> total_sol_value ps - sol_value ls + v <= U64_MAX ->
  exists w1 ps1 l1 ls1, measured D E w i more w1 /\
    the_pool w1 = Some ps1 /\ total_sol_value ps1 = total_sol_value ps - sol_value ls + v /\
    the_list w1 = Some l1 /\ nth_error l1 (Z.to_nat i) = Some ls1 /\
    ls_mint ls1 = ls_mint ls /\ sol_value_calculator ls1 = sol_value_calculator ls /\ sol_value ls1 = v /\
    w_tok w1 = w_tok w /\ w_mint w1 = w_mint w /\ w_owner w1 = w_owner w.
Proof.
  intros Hp Hl Hi Hn Ha Uv Uh Hfit.
  destruct (split_nth l i ls Hi Hn) as (b & af & -> & Hb).
  eexists _, _, _, _. split; [eapply measured_as; eauto|].
  unfold the_pool, the_list. cbn [w_pool w_list put_pool put_list w_tok w_mint w_owner]. rewrite !upd_same.
  split; [reflexivity|]. split; [reflexivity|]. split; [reflexivity|].
  split; [replace (Z.to_nat i) with (length b) by lia; rewrite nth_error_app2 by lia; rewrite Nat.sub_diag; reflexivity|].
  repeat split.
Qed.
Lemma paid_can w m from to owner amount f t : from <> to -> account_of w from m f -> account_of w to m t ->
  ta_owner f = owner -> amount <= ta_amount f -> ta_amount t + amount <= U64_MAX ->
  exists w', paid w m from to owner amount w' /\ ctl_eq w w' /\ w_mint w' = w_mint w /\ w_owner w' = w_owner w /\
    w_tok w' from = Some (mkTok m owner (ta_amount f - amount)) /\
    w_tok w' to = Some (mkTok m (ta_owner t) (ta_amount t + amount)) /\
    (forall k, k <> from -> k <> to -> w_tok w' k = w_tok w k).
Proof.
  intros Hne Hf Ht Ho Hle Hmax. eexists. split; [eapply paid_across; eauto|].
  split; [repeat split|]. cbn [w_mint w_owner w_tok put_tok]. split; [reflexivity|]. split; [reflexivity|].
  rewrite upd_same, (upd_other _ _ _ from), upd_same by congruence. split; [reflexivity|]. split; [reflexivity|].
  intros k K1 K2. rewrite !upd_other by congruence. reflexivity.
Qed.
Lemma burned_can w lp from owner amount f mi : account_of w from lp f -> ta_owner f = owner -> w_mint w lp = Some mi ->
  amount <= ta_amount f -> amount <= m_supply mi ->
  exists w', burned w lp from owner amount w' /\ ctl_eq w w' /\ w_owner w' = w_owner w /\
    (forall k, k <> from -> w_tok w' k = w_tok w k) /\ w_tok w' from = Some (mkTok lp owner (ta_amount f - amount)).
Proof.
  intros Hf Ho Hm H1 H2. eexists. split; [eapply burned_from; eauto|].
  split; [repeat split|]. cbn [w_owner w_tok put_tok put_mint]. split; [reflexivity|].
  rewrite upd_same. split; [|reflexivity]. intros k Hk. rewrite upd_other by congruence. reflexivity.
Qed.

(** In a running pool, the holder [who] redeems [shares] LP tokens of the account [from] into the account [to] of
    the [i]-th LST (whether or not its input is disabled). What is asked of the other programs: the calculator
    values the reserves, before ([v]) and after ([v']) and not higher afterwards; the pricing program leaves
    [net] of the shares' [value]; the calculator turns that into [out] > 0 tokens. What is asked of the pool: the
    reserves hold [out] and the protocol's [fee]. Then the call succeeds, and pays exactly [out]. *)
Theorem C50_exit D (HD : derive_ok D) E C w ps l ls n i shares min who to from f t accs more ms mp v hi net out out_hi v' hi' :
  reachable D w -> the_pool w = Some ps -> running ps -> the_list w = Some l -> nth_error l (Z.to_nat i) = Some ls ->
  ix_wfb (RemoveLiquidity (mkRemLiq n i shares min)) = true ->
  liq_groups more n ps ls ms mp -> passes accs (liq_asks D w ps (ls_mint ls) who to from) more ->
  ~ In who controller_pdas ->
  account_of w from (lp_token_mint ps) f -> ta_owner f = who -> 0 < shares <= ta_amount f ->
  shares <= supply w (lp_token_mint ps) ->
  account_of w to (ls_mint ls) t -> ta_owner t = who -> from <> to -> ta_amount t + out <= U64_MAX ->
  steady E ->
  let reserves := balance w (reserves_key D w (ls_mint ls)) in
  e_lst_to_sol E w (sol_value_calculator ls) (ls_mint ls) ms reserves = Ok (v, hi) -> U64 v -> U64 hi ->
  let T := total w - sol_value ls + v in
  T <= U64_MAX ->
  let value := shares * T / supply w (lp_token_mint ps) in
  e_price_lp_to_redeem E w (pricing_program ps) (ls_mint ls) mp shares value = Ok net -> 0 <= net <= value ->
  e_sol_to_lst E w (sol_value_calculator ls) (ls_mint ls) ms net = Ok (out, out_hi) -> U64 out -> U64 out_hi ->
  0 < out -> min <= out ->
  let fee := in_tokens (protocol_part (lp_protocol_fee_bps ps) (value - net)) out net in
  out + fee <= reserves -> balance w (accumulator_key D w (ls_mint ls)) + fee <= U64_MAX ->
  e_lst_to_sol E w (sol_value_calculator ls) (ls_mint ls) ms (reserves - out - fee) = Ok (v', hi') -> U64 v' -> U64 hi' ->
  v' <= v ->
  exists w', process D E C w accs (RemoveLiquidity (mkRemLiq n i shares min)) = Ok w' /\
    balance w' to = balance w to + out /\ balance w' from = balance w from - shares /\
    total w' = T - v + v'.
Proof.
  intros HR Hp Hrun Hl Hnth Hwf Hg Hpass Hwho Hf Hfo Hsh Hsup Ht Hto Hft Hfit HE reserves Hv Uv Uhi T HT value Hpr Hnet
    Hout Uo Uoh Ho0 Hmin fee Hres Hacc Hv' Uv' Uh' Hle.
  assert (Hi0 : 0 <= i) by (cbn in Hwf; apply andb_prop in Hwf as (Hwf & _); apply andb_prop in Hwf as (Hwf & _);
    apply andb_prop in Hwf as (_ & Hwf); apply u32_nonneg; exact Hwf).
  set (m := ls_mint ls) in *.
  destruct (C39_listed_accounts_exist D w l ls HD HR Hl (nth_error_In _ _ Hnth))
    as (Tp & Mm & rk & fk & tr & tf & Fr & Cr & Ff & Cf & Hr & Hrm & Hro & Hrp & Hfk & Hfm & Hfko & Hfp & Hrf). fold m in Tp, Mm, Fr, Cr, Ff, Cf, Hrm, Hrp, Hfm, Hfp.
  assert (Krk : reserves_key D w m = rk) by (unfold reserves_key; rewrite Fr; reflexivity).
  assert (Kfk : accumulator_key D w m = fk) by (unfold accumulator_key; rewrite Ff; reflexivity).
  assert (Bw : forall w1 k t1, w_tok w1 k = Some t1 -> balance w1 k = ta_amount t1) by (intros w1 k t1 Hk; unfold balance; now rewrite Hk).
  destruct (start_within D HD w HR ps l Hp Hl) as (W0 & _ & Hb).
  pose proof (wi_u64 _ _ _ _ W0) as (U1 & U2).
  pose proof pool_ne_fee as Hpf.
  assert (N1 : who <> POOL_STATE_ID) by (intros ->; apply Hwho; cbn; tauto).
  assert (N2 : who <> PROTOCOL_FEE_ID) by (intros ->; apply Hwho; cbn; tauto).
  destruct Hf as (Hf & Hfm' & Hfp'). destruct Ht as (Ht & Htm & Htp).
  assert (K1 : from <> rk) by congruence. assert (K2 : from <> fk) by congruence.
  assert (K3 : to <> rk) by congruence. assert (K4 : to <> fk) by congruence.
  destruct (lp_here D HD w HR ps Hp) as (HLo & mi & Hmi & _).
  assert (Hsm : supply w (lp_token_mint ps) = m_supply mi) by (unfold supply; now rewrite Hmi).
  (* the value of the reserves *)
  assert (Htot : total w = total_sol_value ps) by (unfold total; now rewrite Hp).
  assert (Hv0 : e_lst_to_sol E w (sol_value_calculator ls) m ms (balance w (reserves_key D w m)) = Ok (v, hi)) by exact Hv.
  destruct (measured_can D E w i ms ps l ls v hi Hp Hl Hi0 Hnth Hv0 Uv Uhi ltac:(unfold T in HT; rewrite Htot in HT; exact HT))
    as (w1 & ps1 & l1 & ls1 & M1 & Hp1 & Ht1 & Hl1 & Hn1 & Q1 & Q2 & Q3 & Tk1 & Mi1 & Ow1).
  assert (HT1 : total w1 = T) by (unfold total; rewrite Hp1, Ht1; unfold T; rewrite Htot; reflexivity).
  assert (HS1 : supply w1 (lp_token_mint ps) = supply w (lp_token_mint ps)) by (unfold supply; now rewrite Mi1).
  assert (Hval : value = worth_of (supply w1 (lp_token_mint ps)) (total w1) shares).
  { unfold worth_of. rewrite HS1, HT1. destruct (Z.eqb_spec (supply w (lp_token_mint ps)) 0) as [e|_]; [clear -e Hsup Hsh; lia|reflexivity]. }
  assert (Hf0 : 0 <= fee).
  { apply in_tokens_nonneg; [|unfold U64 in Uo; clear -Uo; lia|clear -Hnet; lia]. apply part_bound; [exact Hb|clear -Hnet; lia]. }
  (* burn *)
  destruct (burned_can w1 (lp_token_mint ps) from who shares f mi) as (w2 & B2 & C2 & Ow2 & Tk2 & Tf2).
  { unfold account_of. rewrite Tk1, Ow1. auto. } { exact Hfo. } { rewrite Mi1. exact Hmi. } { lia. } { rewrite <- Hsm. lia. }
  (* pay the user *)
  assert (Hrb : balance w rk = ta_amount tr) by eauto.
  unfold reserves in Hres, Hv'. rewrite Krk, Hrb in Hres, Hv'.
  destruct (paid_can w2 m rk to POOL_STATE_ID out tr t) as (w3 & B3 & C3 & Mi3 & Ow3 & Tr3 & Tt3 & Tk3).
  { congruence. }
  { unfold account_of. rewrite Tk2, Tk1, Ow2, Ow1 by congruence. auto. }
  { unfold account_of. rewrite Tk2, Tk1, Ow2, Ow1 by congruence. auto. }
  { exact Hro. } { clear -Hres Hf0. lia. } { exact Hfit. }
  (* pay the fee *)
  destruct (paid_can w3 m rk fk POOL_STATE_ID fee (mkTok m POOL_STATE_ID (ta_amount tr - out)) tf) as (w4 & B4 & C4 & Mi4 & Ow4 & Tr4 & Tt4 & Tk4).
  { exact Hrf. }
  { unfold account_of. rewrite Tr3, Ow3, Ow2, Ow1. auto. }
  { unfold account_of. rewrite Tk3, Tk2, Tk1, Ow3, Ow2, Ow1 by congruence. auto. }
  { reflexivity. } { cbn [ta_amount]. clear -Hres. lia. } { rewrite Kfk in Hacc. erewrite Bw in Hacc by exact Hfk. exact Hacc. }
  (* measure again *)
  assert (C14 : ctl_eq w1 w4) by (eapply ctl_eq_trans; [exact C2|eapply ctl_eq_trans; eauto]).
  assert (Hp4 : the_pool w4 = Some ps1) by (unfold the_pool in *; destruct C14 as (-> & _); exact Hp1).
  assert (Hl4 : the_list w4 = Some l1) by (unfold the_list in *; destruct C14 as (_ & -> & _); exact Hl1).
  assert (Ow : w_owner w4 = w_owner w) by congruence.
  assert (Krk4 : reserves_key D w4 m = rk) by (unfold reserves_key; rewrite Ow, Fr; reflexivity).
  cbn [ta_amount] in Tr4.
  assert (Hb4 : balance w4 rk = ta_amount tr - out - fee) by (erewrite Bw by exact Tr4; reflexivity).
  destruct (measured_can D E w4 i ms ps1 l1 ls1 v' hi' Hp4 Hl4 Hi0 Hn1) as (w5 & ps5 & l5 & ls5 & M5 & Hp5 & Ht5 & _ & _ & _ & _ & _ & Tk5 & _ & _).
  { rewrite Q1, Q2. fold m. rewrite Krk4, Hb4, (proj1 (HE w4 w)). exact Hv'. }
  { exact Uv'. } { exact Uh'. } { rewrite Q3, Ht1. unfold T in HT. rewrite Htot in HT. clear -HT Hle. lia. }
  exists w5. split; [|split; [|split]].
  - apply (C49_permitted D HD E C w HR _ accs (liq_asks D w ps m who to from) more w5 Hwf); [|exact Hpass].
    destruct (HE w1 w) as (_ & E2 & E3).
    eapply (may_remove_liquidity D E C w ps l ls n i shares min who to from more ms mp w1 value net out out_hi fee w2 w3 w4 w5);
      try eassumption; try reflexivity; fold m; [clear -Hsh; lia| | |clear -Ho0; lia| | ].
    + rewrite E3. exact Hpr.
    + rewrite E2. exact Hout.
    + rewrite Krk. exact B3.
    + rewrite Krk, Kfk. exact B4.
  - unfold balance. rewrite Tk5, Tk4, Tt3, Ht by congruence. reflexivity.
  - unfold balance. rewrite Tk5, Tk4, Tk3, Tf2, Hf by congruence. reflexivity.
  - unfold total at 1. rewrite Hp5, Ht5, Ht1, Q3. unfold T. rewrite Htot. clear. lia.
Qed.

(** The programs of the examples are steady; so are the shipped ones. *)
Lemma E0_steady : steady E0.
Proof. intros w w'. repeat split. Qed.
Theorem C50_shipped_steady R dp pw other : steady other -> steady (deployed_env R dp pw other).
Proof.
  intros H w w'. destruct (H w w') as (H1 & H2 & H3). unfold deployed_env. cbn [e_lst_to_sol e_sol_to_lst e_price_lp_to_redeem].
  rewrite H1, H2, H3. repeat split.
Qed.

(** In [W16] the second LST's input is disabled: one cannot deposit or pay with it, but one can leave through it. *)
Definition exit_accs := liq_accs MB UB FB SPL_TOKEN_2022_ID RB CB.
Example C50_exit_case : exists ps l ls f t,
  reachable D0 W16 /\ the_pool W16 = Some ps /\ running ps /\ the_list W16 = Some l /\ nth_error l 1 = Some ls /\
  is_input_disabled ls = 1 /\
  liq_groups [ro CB; ro PP] 1 ps ls [] [] /\
  passes exit_accs (liq_asks D0 W16 ps (ls_mint ls) USER UB UL) [ro CB; ro PP] /\
  ~ In USER controller_pdas /\
  account_of W16 UL (lp_token_mint ps) f /\ ta_owner f = USER /\ 0 < 800000 <= ta_amount f /\
  800000 <= supply W16 (lp_token_mint ps) /\
  account_of W16 UB (ls_mint ls) t /\ ta_owner t = USER /\ UL <> UB /\ ta_amount t + 401631 <= U64_MAX /\
  balance W16 (reserves_key D0 W16 (ls_mint ls)) = 446312 /\
  total W16 - sol_value ls + 892624 = 1897688 /\ 800000 * 1897688 / supply W16 (lp_token_mint ps) = 811376 /\
  e_price_lp_to_redeem E0 W16 (pricing_program ps) (ls_mint ls) [] 800000 811376 = Ok 803262 /\
  e_sol_to_lst E0 W16 (sol_value_calculator ls) (ls_mint ls) [] 803262 = Ok (401631, 401631) /\
  in_tokens (protocol_part (lp_protocol_fee_bps ps) (811376 - 803262)) 401631 803262 = 406 /\
  exists w', process D0 E0 C0 W16 exit_accs (RemoveLiquidity (mkRemLiq 1 1 800000 400000)) = Ok w' /\
    balance w' UB = balance W16 UB + 401631 /\ balance w' UL = balance W16 UL - 800000.
Proof.
  assert (U : forall x, 0 <= x <= 1000000 -> U64 x) by (intros x Hx; unfold U64, U64_MAX; lia).
  assert (N1 : 0 < 800000 <= 1871081) by lia. assert (N2 : 800000 <= 1871081) by lia.
  assert (N3 : U64 892624) by (apply U; lia). assert (N4 : 0 <= 1897688 <= U64_MAX) by (unfold U64_MAX; lia).
  assert (N5 : U64 401631) by (apply U; lia). assert (N6 : U64 88550) by (apply U; lia).
  assert (N8 : 0 <= 803262 <= 811376) by lia.
  assert (N9 : 400000 <= 401631) by lia. assert (N10 : 401631 + 406 <= 446312) by lia. assert (N11 : 88550 <= 892624) by lia.
  set (ps := match the_pool W16 with Some ps => ps | None => mkPool 0 0 0 0 0 0 0 0 0 0 0 end).
  set (l := match the_list W16 with Some l => l | None => [] end).
  set (ls := match nth_error l 1 with Some ls => ls | None => mkLst 0 0 0 0 0 0 end).
  set (f := match w_tok W16 UL with Some t => t | None => mkTok 0 0 0 end).
  set (t := match w_tok W16 UB with Some t => t | None => mkTok 0 0 0 end).
  assert (Hp : the_pool W16 = Some ps) by (vm_compute; reflexivity).
  assert (Hl : the_list W16 = Some l) by (vm_compute; reflexivity).
  assert (Hn : nth_error l 1 = Some ls) by (vm_compute; reflexivity).
  assert (Hf : account_of W16 UL (lp_token_mint ps) f) by (split; [|split]; vm_compute; reflexivity).
  assert (Ht : account_of W16 UB (ls_mint ls) t) by (split; [|split]; vm_compute; reflexivity).
  assert (Hg : liq_groups [ro CB; ro PP] 1 ps ls [] []).
  { exists [ro CB], [ro PP]. split; [reflexivity|]. split; [reflexivity|]. split; (eexists; split; [reflexivity|vm_compute; reflexivity]). }
  assert (Hpass : passes exit_accs (liq_asks D0 W16 ps (ls_mint ls) USER UB UL) [ro CB; ro PP]).
  { exists (firstn 11 exit_accs). split; [reflexivity|].
    unfold exit_accs, liq_accs, liq_asks. cbn [firstn].
    repeat (apply Forall2_cons; [split; [vm_compute; reflexivity|split; intros H; first [reflexivity|discriminate H]]|]). apply Forall2_nil. }
  assert (Hu : ~ In USER controller_pdas).
  { unfold USER. cbn. unfold POOL_STATE_ID, LST_STATE_LIST_ID, DISABLE_POOL_AUTHORITY_LIST_ID,
      REBALANCE_RECORD_ID, PROTOCOL_FEE_ID. intuition lia. }
  assert (Hrun : running ps) by (split; vm_compute; reflexivity).
  assert (F1 : ta_owner f = USER) by (vm_compute; reflexivity).
  assert (F2 : ta_amount f = 1871081) by (vm_compute; reflexivity).
  assert (F3 : supply W16 (lp_token_mint ps) = 1871081) by (vm_compute; reflexivity).
  assert (F4 : ta_owner t = USER) by (vm_compute; reflexivity).
  assert (F5 : UL <> UB) by discriminate.
  assert (F6 : ta_amount t + 401631 <= U64_MAX) by (vm_compute; discriminate).
  assert (G1 : balance W16 (reserves_key D0 W16 (ls_mint ls)) = 446312) by (vm_compute; reflexivity).
  assert (G2 : total W16 - sol_value ls + 892624 = 1897688) by (vm_compute; reflexivity).
  assert (G3 : 800000 * 1897688 / supply W16 (lp_token_mint ps) = 811376) by (vm_compute; reflexivity).
  assert (G4 : e_price_lp_to_redeem E0 W16 (pricing_program ps) (ls_mint ls) [] 800000 811376 = Ok 803262) by (vm_compute; reflexivity).
  assert (G5 : e_sol_to_lst E0 W16 (sol_value_calculator ls) (ls_mint ls) [] 803262 = Ok (401631, 401631)) by (vm_compute; reflexivity).
  assert (G6 : in_tokens (protocol_part (lp_protocol_fee_bps ps) (811376 - 803262)) 401631 803262 = 406) by (vm_compute; reflexivity).
  assert (G7 : e_lst_to_sol E0 W16 (sol_value_calculator ls) (ls_mint ls) [] 446312 = Ok (892624, 892624)) by (vm_compute; reflexivity).
  assert (G8 : e_lst_to_sol E0 W16 (sol_value_calculator ls) (ls_mint ls) [] (446312 - 401631 - 406) = Ok (88550, 88550)) by (vm_compute; reflexivity).
  assert (G9 : balance W16 (accumulator_key D0 W16 (ls_mint ls)) + 406 <= U64_MAX) by (vm_compute; discriminate).
  assert (G10 : is_input_disabled ls = 1) by (vm_compute; reflexivity).
  exists ps, l, ls, f, t. clearbody ps l ls f t.
  pose proof (C50_exit D0 D0_ok E0 C0 W16 ps l ls 1 1 800000 400000 USER UB UL f t exit_accs [ro CB; ro PP] [] []
    892624 892624 803262 401631 401631 88550 88550 W16_reach Hp Hrun Hl Hn eq_refl Hg Hpass Hu Hf F1) as X.
  cbv zeta in X. rewrite G1, G2, G3, G6, F2, F3 in X.
  split; [exact W16_reach|]. split; [exact Hp|]. split; [exact Hrun|]. split; [exact Hl|]. split; [exact Hn|]. split; [exact G10|].
  split; [exact Hg|]. split; [exact Hpass|]. split; [exact Hu|]. split; [exact Hf|]. split; [exact F1|]. split; [rewrite F2; exact N1|]. split; [rewrite F3; exact N2|].
  split; [exact Ht|]. split; [exact F4|]. split; [exact F5|]. split; [exact F6|]. split; [exact G1|]. split; [exact G2|].
  split; [exact G3|]. split; [exact G4|]. split; [exact G5|]. split; [exact G6|].
  destruct X as (w' & X1 & X2 & X3 & _); [exact N1|exact N2|exact Ht|exact F4|exact F5|exact F6|exact E0_steady|exact G7|exact N3|exact N3|
    exact (proj2 N4)|exact G4|exact N8|exact G5|exact N5|exact N5|reflexivity|exact N9|exact N10|exact G9|exact G8|exact N6|exact N6|exact N11|].
  exists w'. split; [exact X1|]. split; [exact X2|exact X3].
Qed.
