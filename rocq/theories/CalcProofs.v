(** Arithmetic facts about the ratio operations and libs/s-controller-lib/src/calc.rs. *)
From Coq Require Import ZArith List Bool Lia.
From Verif Require Import Base Ratio Calc.
Import ListNotations.
Open Scope Z_scope.
Ltac Zify.zify_post_hook ::= Z.div_mod_to_equations.

Lemma mul_div_le_iff x n d q : 0 < d -> (q <= x * n / d <-> q * d <= x * n).
Proof.
  intros Hd. split; intros H.
  - pose proof (Z.mul_div_le (x * n) d Hd). nia.
  - apply Z.div_le_lower_bound; lia.
Qed.

Lemma floor_apply_ok num denom x r :
  floor_apply num denom x = Ok r ->
  r <= U64_MAX /\
  (num = 0 \/ denom = 0 -> r = 0) /\ (num <> 0 -> denom <> 0 -> r = x * num / denom).
Proof.
  unfold floor_apply.
  destruct (Z.eqb_spec num 0) as [Hn|Hn], (Z.eqb_spec denom 0) as [Hd|Hd]; cbn [orb];
    try (intros [= <-]; unfold U64_MAX; repeat split; try lia; tauto).
  destruct (Z.leb_spec (x * num / denom) U64_MAX); intros [= <-]. repeat split; try lia; tauto.
Qed.

Lemma floor_apply_nonneg num denom x r :
  0 <= num -> 0 <= denom -> 0 <= x -> floor_apply num denom x = Ok r -> 0 <= r.
Proof.
  intros Hn Hd Hx H. apply floor_apply_ok in H as (_ & H0 & H1).
  destruct (Z.eq_dec num 0); [rewrite H0; lia|]. destruct (Z.eq_dec denom 0); [rewrite H0; lia|].
  rewrite H1 by assumption. apply Z.div_pos; nia.
Qed.

(** floor_apply never exceeds the exact quotient: r*d <= x*n (for a nonzero denominator). *)
Lemma floor_apply_le num denom x r :
  0 <= num -> 0 < denom -> 0 <= x -> floor_apply num denom x = Ok r -> r * denom <= x * num.
Proof.
  intros Hn Hd Hx H. apply floor_apply_ok in H as (_ & H0 & H1).
  destruct (Z.eq_dec num 0); [rewrite H0 by auto; nia|]. rewrite H1 by lia.
  pose proof (Z.mul_div_le (x * num) denom Hd). lia.
Qed.
Lemma floor_apply_gt num denom x r :
  0 < num -> 0 < denom -> floor_apply num denom x = Ok r -> x * num < (r + 1) * denom.
Proof.
  intros Hn Hd H. apply floor_apply_ok in H as (_ & _ & H1). rewrite H1 by lia.
  pose proof (Z.mod_pos_bound (x * num) denom Hd). pose proof (Z.div_mod (x * num) denom). nia.
Qed.

Lemma ceil_div_spec a b : 0 < b -> ceil_div a b * b >= a /\ ceil_div a b * b < a + b.
Proof.
  intros Hb. unfold ceil_div. pose proof (Z.div_mod (a + b - 1) b).
  pose proof (Z.mod_pos_bound (a + b - 1) b Hb). nia.
Qed.

Lemma ceil_bps_fee_ok bps x f :
  0 <= bps -> 0 <= x -> ceil_bps_fee bps x = Ok f ->
  bps <= 10000 /\ 0 <= f <= x /\ f * 10000 >= x * bps /\ f * 10000 < x * bps + 10000 /\
  (bps = 0 \/ x = 0 -> f = 0).
Proof.
  intros Hb Hx. unfold ceil_bps_fee, ceil_fee_charged, BPS_DENOMINATOR.
  destruct (Z.ltb_spec 10000 bps); [discriminate|].
  destruct (Z.eqb_spec bps 0) as [->|Hn]; cbn [orb].
  - intros [= <-]. lia.
  - change (10000 =? 0) with false. intros [= <-].
    destruct (ceil_div_spec (x * bps) 10000); try lia.
    assert (0 <= ceil_div (x * bps) 10000) by nia.
    repeat split; try nia.
Qed.

Lemma sat_sub_spec a b : sat_sub a b = Z.max 0 (a - b).
Proof. unfold sat_sub. destruct (Z.leb_spec b a); lia. Qed.

(* ------------------------------------------------------------------ *)
(** Protocol fee split *)

Lemma calc_add_fees_ok amt sol after bps r p :
  0 <= amt -> 0 <= sol -> 0 <= after <= sol -> 0 <= bps ->
  calc_add_liquidity_protocol_fees amt sol after bps = Ok (r, p) ->
  r + p = amt /\ 0 <= r /\ 0 <= p /\ bps <= 10000 /\
  exists fee, ceil_bps_fee bps (sol - after) = Ok fee /\ 0 <= fee <= sol - after /\
    p * sol <= amt * fee /\ (sol > 0 -> amt * fee < (p + 1) * sol).
Proof.
  intros Ha Hs Hf Hb. unfold calc_add_liquidity_protocol_fees.
  rewrite sat_sub_spec, Z.max_r by lia.
  destruct (ceil_bps_fee bps (sol - after)) as [fee|] eqn:Hc; cbn [bind]; [|discriminate].
  destruct (ceil_bps_fee_ok bps (sol - after) fee Hb ltac:(lia) Hc) as (Hb1 & Hf1 & _).
  destruct (floor_apply amt sol fee) as [p'|] eqn:Hp; cbn [bind]; [|discriminate].
  unfold checked_sub. destruct (Z.leb_spec p' amt); cbn [bind]; [|discriminate].
  intros [= <- <-].
  pose proof (floor_apply_nonneg amt sol fee p' Ha Hs ltac:(lia) Hp).
  repeat split; try lia. exists fee. repeat split; try lia.
  - destruct (Z.eq_dec sol 0); [subst; nia|].
    pose proof (floor_apply_le amt sol fee p' Ha ltac:(lia) ltac:(lia) Hp). lia.
  - intros. destruct (Z.eq_dec amt 0).
    + assert (p' = 0) by lia. subst. nia.
    + pose proof (floor_apply_gt amt sol fee p' ltac:(lia) ltac:(lia) Hp). lia.
Qed.

Lemma calc_remove_fees_ok sol after user bps p :
  0 <= after <= sol -> 0 <= user -> 0 <= bps ->
  calc_remove_liquidity_protocol_fees sol after user bps = Ok p ->
  0 <= p /\ p <= U64_MAX /\ bps <= 10000 /\
  exists fee, ceil_bps_fee bps (sol - after) = Ok fee /\ 0 <= fee <= sol - after /\
    p * after <= user * fee /\ (after = 0 -> p = 0) /\ 
    (after > 0 -> user * fee < (p + 1) * after).
Proof.
  intros Ha Hu Hb. unfold calc_remove_liquidity_protocol_fees.
  rewrite sat_sub_spec, Z.max_r by lia.
  destruct (ceil_bps_fee bps (sol - after)) as [fee|] eqn:Hc; cbn [bind]; [|discriminate].
  destruct (ceil_bps_fee_ok bps (sol - after) fee Hb ltac:(lia) Hc) as (Hb1 & Hf1 & _).
  intros Hp.
  pose proof (floor_apply_nonneg user after fee p Hu (proj1 Ha) ltac:(lia) Hp).
  pose proof (floor_apply_ok _ _ _ _ Hp) as (Hp1 & Hp2 & _).
  repeat split; try lia. exists fee. repeat split; try lia.
  - destruct (Z.eq_dec after 0); [subst; nia|].
    pose proof (floor_apply_le user after fee p Hu ltac:(lia) ltac:(lia) Hp). lia.
  - intros. destruct (Z.eq_dec user 0).
    + assert (p = 0) by lia. subst. nia.
    + pose proof (floor_apply_gt user after fee p ltac:(lia) ltac:(lia) Hp). lia.
Qed.

Lemma calc_swap_fees_ok sin sout dst bps p :
  0 <= sin -> 0 <= sout -> 0 <= dst -> 0 <= bps ->
  calc_swap_protocol_fees sin sout dst bps = Ok p ->
  0 <= p /\ p <= U64_MAX /\ bps <= 10000 /\
  exists fee, ceil_bps_fee bps (Z.max 0 (sin - sout)) = Ok fee /\ 0 <= fee <= Z.max 0 (sin - sout) /\
    p * sout <= dst * fee /\ (sout = 0 -> p = 0) /\
    (sout > 0 -> dst * fee < (p + 1) * sout).
Proof.
  intros Hi Ho Hu Hb. unfold calc_swap_protocol_fees. rewrite sat_sub_spec.
  destruct (ceil_bps_fee bps (Z.max 0 (sin - sout))) as [fee|] eqn:Hc; cbn [bind]; [|discriminate].
  destruct (ceil_bps_fee_ok bps (Z.max 0 (sin - sout)) fee Hb ltac:(lia) Hc) as (Hb1 & Hf1 & _).
  intros Hp.
  pose proof (floor_apply_nonneg dst sout fee p Hu Ho ltac:(lia) Hp).
  pose proof (floor_apply_ok _ _ _ _ Hp) as (Hp1 & Hp2 & _).
  repeat split; try lia. exists fee. repeat split; try lia.
  - destruct (Z.eq_dec sout 0); [subst; nia|].
    pose proof (floor_apply_le dst sout fee p Hu ltac:(lia) ltac:(lia) Hp). lia.
  - intros. destruct (Z.eq_dec dst 0).
    + assert (p = 0) by lia. subst. nia.
    + pose proof (floor_apply_gt dst sout fee p ltac:(lia) ltac:(lia) Hp). lia.
Qed.

(* ------------------------------------------------------------------ *)
(** LP token arithmetic *)

Lemma lp_to_mint_nonneg s t v m :
  0 <= s -> 0 <= t -> 0 <= v -> calc_lp_tokens_to_mint s t v = Ok m -> 0 <= m.
Proof.
  intros Hs Ht Hv. unfold calc_lp_tokens_to_mint.
  destruct (Z.eqb_spec s 0).
  - rewrite checked_add_ok. lia.
  - destruct (Z.eqb_spec t 0).
    + intros [= <-]. lia.
    + apply floor_apply_nonneg; auto.
Qed.

Lemma lp_to_mint_le s t v m :
  0 < s -> 0 < t -> 0 <= v -> calc_lp_tokens_to_mint s t v = Ok m -> m * t <= v * s.
Proof.
  intros Hs Ht Hv. unfold calc_lp_tokens_to_mint.
  destruct (Z.eqb_spec s 0); [lia|]. destruct (Z.eqb_spec t 0); [lia|].
  intros H. apply floor_apply_le in H; lia.
Qed.

Lemma lp_sol_value_le s t x v :
  0 <= s -> 0 <= t -> 0 <= x -> calc_lp_tokens_sol_value s t x = Ok v ->
  0 <= v /\ v <= U64_MAX /\ v * s <= x * t.
Proof.
  intros Hs Ht Hx. unfold calc_lp_tokens_sol_value.
  destruct (Z.eqb_spec t 0), (Z.eqb_spec s 0); cbn [orb]; 
    try (intros [= <-]; unfold U64_MAX; nia).
  intros H. pose proof (floor_apply_nonneg _ _ _ _ Ht Hs Hx H).
  pose proof (floor_apply_ok _ _ _ _ H) as (? & _).
  apply floor_apply_le in H; try lia. 
Qed.

(** Minting then redeeming: LP tokens minted for [v] are worth at most [v] right after. *)
Lemma mint_then_redeem s t v m v' x :
  0 < s -> 0 < t -> 0 <= v -> v <= v' ->
  calc_lp_tokens_to_mint s t v = Ok m ->
  calc_lp_tokens_sol_value (s + m) (t + v') m = Ok x -> x <= v'.
Proof.
  intros Hs Ht Hv Hv' Hm Hx.
  pose proof (lp_to_mint_nonneg _ _ _ _ (Z.lt_le_incl _ _ Hs) (Z.lt_le_incl _ _ Ht) Hv Hm).
  pose proof (lp_to_mint_le _ _ _ _ Hs Ht Hv Hm).
  apply lp_sol_value_le in Hx as (? & ? & ?); try lia.
  assert (m * (t + v') <= v' * (s + m)) by nia. nia.
Qed.
