(** Lemmas about pools made of the shipped programs. *)
From Coq Require Import ZArith List Bool Lia.
From Verif Require Import Base Ratio Calc State Controller Inversion ProcInv Spec CalcProofs InvProofs
  TokProofs AccessProofs ShapeProofs MoneyProofs PropTok PropMoney PropLp Periph PeriphSpec PeriphProofs
  PropCalc PropFlat Deploy DeploySpec.
Import ListNotations.
Open Scope Z_scope.

Lemma div_add_le a b d : 0 < d -> (a + b) / d <= a / d + b / d + 1.
Proof.
  intros Hd. pose proof (Z.mul_succ_div_gt a d Hd). pose proof (Z.mul_succ_div_gt b d Hd).
  pose proof (Z.mul_div_le (a + b) d Hd). unfold Z.succ in *. nia.
Qed.
Lemma div_add3_le a b c d : 0 < d -> (a + b + c) / d <= a / d + b / d + (1 + up c d).
Proof.
  intros Hd. pose proof (Z.mul_succ_div_gt a d Hd). pose proof (Z.mul_succ_div_gt b d Hd).
  pose proof (Z.mul_div_le (a + b + c) d Hd). unfold up. pose proof (Z.mul_div_le (- c) d Hd).
  unfold Z.succ in *. nia.
Qed.
Lemma up_nonneg a b : 0 <= a -> 0 < b -> 0 <= up a b.
Proof. intros. unfold up. assert (- a / b <= 0); [|lia]. apply Z.div_le_upper_bound; lia. Qed.
Lemma up_pos a b : 0 < a -> 0 < b -> 0 < up a b.
Proof. intros. unfold up. assert (- a / b < 0); [|lia]. apply Z.div_lt_upper_bound; lia. Qed.

Lemma share_sub x y n d : 0 <= n -> 0 <= d -> share (x + y) n d <= share x n d + share y n d + 1.
Proof.
  intros. unfold share, down. destruct (Z.eqb_spec n 0), (Z.eqb_spec d 0); cbn [orb]; try lia.
  rewrite Z.mul_add_distr_r. apply div_add_le. lia.
Qed.
Lemma spl_rest_sub p x y : 0 <= sp_fee_num p <= sp_fee_denom p ->
  spl_rest p (x + y) <= spl_rest p x + spl_rest p y + (if sp_fee_num p =? 0 then 0 else 1).
Proof.
  intros. unfold spl_rest. destruct (Z.eqb_spec (sp_fee_denom p) 0).
  - destruct (sp_fee_num p =? 0); lia.
  - destruct (Z.eqb_spec (sp_fee_num p) 0) as [->|].
    + rewrite Z.sub_0_r, !Z.div_mul by lia. lia.
    + rewrite Z.mul_add_distr_r. apply div_add_le. lia.
Qed.
Lemma share_sub1 x y n d : 0 <= n -> 0 <= d ->
  share (x + y + 1) n d <= share x n d + share y n d + (1 + up n d).
Proof.
  intros. unfold share, down. destruct (Z.eqb_spec d 0) as [->|]; rewrite ?orb_true_r.
  - unfold up. rewrite Zdiv_0_r. lia.
  - destruct (Z.eqb_spec n 0) as [->|]; cbn [orb].
    + pose proof (up_nonneg 0 d). lia.
    + replace ((x + y + 1) * n) with (x * n + y * n + n) by ring. apply div_add3_le. lia.
Qed.
(** Valuing in two parts loses at most [split_loss]. *)
Lemma worth_sub c x y : calc_typed c -> fee_ok c ->
  worth c (x + y) <= worth c x + worth c y + split_loss c.
Proof.
  destruct c as [|p|p|p]; unfold calc_typed, fee_ok, U64; intros Ht Hf; cbn [worth split_loss].
  - lia.
  - rewrite !spl_fee_rest by lia. pose proof (spl_rest_sub p x y ltac:(lia)) as Hs.
    pose proof (share_mono _ _ (sp_total_lamports p) (sp_pool_token_supply p) ltac:(lia) ltac:(lia) Hs) as Hm.
    destruct (sp_fee_num p =? 0).
    + rewrite Z.add_0_r in Hm. etransitivity; [exact Hm|]. apply share_sub; lia.
    + etransitivity; [exact Hm|]. apply share_sub1; lia.
  - apply share_sub; lia.
  - cbv zeta. pose proof (marinade_total_nonneg p).
    pose proof (share_sub x y (marinade_total p) (ma_msol_supply p) ltac:(lia) ltac:(lia)) as Hs.
    pose proof (ma_rest_mono (ma_fee_cents p) _ _ ltac:(lia) Hs) as Hm.
    rewrite (ma_rest_ceil _ (_ + _ + 1)), !Z.mul_add_distr_r in Hm.
    set (k := 1000000 - ma_fee_cents p) in *.
    pose proof (ceil_div_sub (share x (marinade_total p) (ma_msol_supply p) * k
      + share y (marinade_total p) (ma_msol_supply p) * k) (1 * k) 1000000 ltac:(lia)).
    pose proof (ceil_div_sub (share x (marinade_total p) (ma_msol_supply p) * k)
      (share y (marinade_total p) (ma_msol_supply p) * k) 1000000 ltac:(lia)).
    assert (ceil_div (1 * k) 1000000 <= 1).
    { replace 1 with (ceil_div 1000000 1000000) at 2 by reflexivity. apply ceil_div_mono; lia. }
    pose proof (ma_rest_ceil (ma_fee_cents p) (share x (marinade_total p) (ma_msol_supply p))) as E1.
    pose proof (ma_rest_ceil (ma_fee_cents p) (share y (marinade_total p) (ma_msol_supply p))) as E2.
    fold k in E1, E2. unfold ma_rest in *. lia.
Qed.
Lemma split_loss_nonneg c : calc_typed c -> 0 <= split_loss c.
Proof.
  destruct c as [|p|p|p]; unfold calc_typed, U64; cbn [split_loss]; try lia. intros Ht.
  destruct (sp_fee_num p =? 0); [lia|]. unfold up.
  destruct (Z.eq_dec (sp_pool_token_supply p) 0) as [->|]; [rewrite Zdiv_0_r; lia|].
  assert (- sp_total_lamports p / sp_pool_token_supply p <= 0); [|lia]. apply Z.div_le_upper_bound; lia.
Qed.
(** A pool whose tokens are worth anything has a rate. *)
Lemma worth_pos_live c x : calc_typed c -> fee_ok c -> 0 < worth c x -> calc_live c.
Proof.
  destruct c as [|p|p|p]; unfold calc_typed, fee_ok, calc_live, U64; intros Ht Hf; cbn [worth]; auto.
  - unfold share. destruct (Z.eqb_spec (sp_total_lamports p) 0), (Z.eqb_spec (sp_pool_token_supply p) 0);
      cbn [orb]; try lia. intros Hw. repeat split; try lia.
    destruct (Z.eq_dec (sp_fee_num p) (sp_fee_denom p)) as [E|]; [|lia].
    right. destruct (Z.eq_dec (sp_fee_num p) 0); auto. exfalso. revert Hw. rewrite spl_fee_rest by lia.
    unfold spl_rest. destruct (Z.eqb_spec (sp_fee_denom p) 0); [lia|].
    rewrite <- E, Z.sub_diag, Z.mul_0_r. unfold down. rewrite ?Zdiv_0_l, ?Z.mul_0_l, ?Zdiv_0_l. lia.
  - unfold share. destruct (Z.eqb_spec (li_sol_balance p) 0), (Z.eqb_spec (li_st_sol_supply p) 0); cbn [orb]; lia.
  - cbv zeta. intros Hw. pose proof (marinade_total_nonneg p).
    assert (Hg : share x (marinade_total p) (ma_msol_supply p) <> 0) by (intros E; rewrite E in Hw; cbn in Hw; lia).
    unfold share in Hg. destruct (Z.eqb_spec (marinade_total p) 0), (Z.eqb_spec (ma_msol_supply p) 0);
      cbn [orb] in Hg; try lia. repeat split; try lia.
    destruct (Z.eq_dec (ma_fee_cents p) 1000000) as [E|]; [|lia]. exfalso.
    rewrite E in Hw. unfold down in Hw. rewrite Z.div_mul in Hw by lia. lia.
Qed.

Section Deployed.
Variables (R : RatioLib) (dp : Deploy) (pw : PWorld) (other : Env).
Notation E := (deployed_env R dp pw other).
Hypothesis Ht : pools_typed pw.

Lemma shipped_pool_typed prog mint accs c : shipped_pool dp pw prog mint accs = Some c -> calc_typed c.
Proof.
  unfold shipped_pool. destruct (prog =? dp_wsol dp); [intros [= <-]; exact I|].
  destruct (calc_cfg dp prog); [|discriminate]. apply pool_of_typed. exact Ht.
Qed.
(** A shipped calculator answers with the worth of the amount, as a single figure. *)
Lemma deployed_value w prog mint accs x v hi :
  shipped_calc dp prog -> e_lst_to_sol E w prog mint accs x = Ok (v, hi) ->
  exists c, shipped_pool dp pw prog mint accs = Some c /\ calc_typed c /\ answers c x /\
    v = worth c x /\ hi = worth c x.
Proof.
  intros Hs H. cbn [e_lst_to_sol deployed_env] in H. unfold calc_answer in H. unfold shipped_pool.
  destruct (Z.eqb_spec prog (dp_wsol dp)) as [->|Hne].
  - exists CWsol. apply C23_wsol in H as (_ & _ & y & [Hy|Hy] & Hv); [|discriminate].
    injection Hy as <-. injection Hv as -> ->. cbn. auto.
  - destruct (calc_cfg dp prog) as [cfg|] eqn:Hc; [|destruct Hs; congruence].
    apply bind_ok in H as ((pw' & r) & H & Hr). apply of_option_ok in Hr. subst r.
    cbn [calc_process] in H. apply bind_ok in H as (c & Hq & H). apply verify_common_iff in Hq.
    pose proof (q_pool _ _ _ _ Hq) as Hp. pose proof (pool_of_typed _ _ _ _ Ht Hp) as Hct.
    apply bind_ok in H as (v' & Hv & H). apply calc_lst_to_sol_any in Hv as (Ha & ->); auto.
    exists c. split; [exact Hp|]. split; [exact Hct|]. split; [exact Ha|]. split; congruence.
Qed.
(** Its reverse answer's lower end is below every amount worth the SOL asked for. *)
Lemma deployed_reverse w prog mint accs s lo hi c :
  ratio_lib_ok R -> shipped_calc dp prog -> U64 s -> shipped_pool dp pw prog mint accs = Some c -> calc_live c ->
  e_sol_to_lst E w prog mint accs s = Ok (lo, hi) ->
  U64 lo /\ forall x, 0 <= x -> s <= worth c x -> lo <= x.
Proof.
  intros HR Hs Hx Hp Hl H. pose proof (shipped_pool_typed _ _ _ _ Hp) as Hct.
  cbn [e_sol_to_lst deployed_env] in H. unfold calc_answer in H. unfold shipped_pool in Hp.
  destruct (Z.eqb_spec prog (dp_wsol dp)) as [->|Hne].
  - injection Hp as <-. apply C23_wsol in H as (_ & _ & y & [Hy|Hy] & Hv); [discriminate|].
    injection Hy as <-. injection Hv as -> ->. cbn [worth]. auto.
  - destruct (calc_cfg dp prog) as [cfg|] eqn:Hc; [|destruct Hs; congruence].
    apply bind_ok in H as ((pw' & r) & H & Hr). apply of_option_ok in Hr. subst r.
    cbn [calc_process] in H. apply bind_ok in H as (c' & Hc' & H). apply verify_common_iff in Hc'.
    pose proof (q_pool _ _ _ _ Hc') as Hp'. assert (c' = c) as -> by congruence.
    apply bind_ok in H as ((lo' & hi') & Hv & H).
    assert (lo' = lo /\ hi' = hi) as (-> & ->) by (split; congruence).
    destruct (calc_sol_to_lst_bracket R c s lo hi HR Hct Hl Hx Hv) as (_ & H2 & _ & H4 & _). auto.
Qed.

Lemma deployed_mint_price w prog m accs amt v r :
  shipped_pricing dp prog -> e_price_lp_to_mint E w prog m accs amt v = Ok r -> r = v.
Proof.
  intros Hs H. cbn [e_price_lp_to_mint deployed_env] in H. unfold price_answer in H.
  destruct (Z.eqb_spec prog (ff_id (dp_flat dp))).
  - apply bind_ok in H as ((pw' & q) & H & Hr). rewrite C24_mint_free in H.
    apply of_option_ok in Hr. congruence.
  - destruct (Z.eqb_spec prog (dp_nofee dp)); [|destruct Hs; congruence].
    cbn in H. congruence.
Qed.
Lemma deployed_redeem_price w prog m accs amt v r :
  flat_derive_ok (dp_flat dp) -> flat_reachable R (dp_flat dp) pw -> U64 v ->
  shipped_pricing dp prog -> e_price_lp_to_redeem E w prog m accs amt v = Ok r ->
  r = v - redeem_fee dp pw prog v.
Proof.
  intros HD Hr Hv Hs H. cbn [e_price_lp_to_redeem deployed_env] in H. unfold price_answer, redeem_fee in *.
  destruct (Z.eqb_spec prog (ff_id (dp_flat dp))).
  - apply bind_ok in H as ((pw' & q) & H & Hq).
    apply C24_redeem in H as (_ & _ & _ & f & Hf & ->); auto. rewrite Hf. cbn in Hq. congruence.
  - destruct (Z.eqb_spec prog (dp_nofee dp)); [|destruct Hs; congruence].
    cbn in H. assert (v = r) by congruence. lia.
Qed.
End Deployed.
