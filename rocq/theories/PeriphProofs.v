(** Lemmas about the calculators' arithmetic. *)
From Coq Require Import ZArith List Bool Lia.
From Verif Require Import Base Ratio State Controller Inversion Spec Periph PeriphSpec.
Import ListNotations.
Open Scope Z_scope.

Lemma up_ceil_div a b : 0 < b -> up a b = ceil_div a b.
Proof.
  intros Hb. unfold up. apply Z.le_antisymm.
  - assert (- ceil_div a b <= (- a) / b); [|lia]. apply div_spec; auto.
    pose proof (proj1 (ceil_div_spec a b Hb _) (Z.le_refl _)). lia.
  - apply ceil_div_spec; auto. pose proof (proj1 (div_spec (- a) b Hb _) (Z.le_refl _)). lia.
Qed.

(** [floor_apply] is [share], when that fits. *)
Lemma floor_apply_share n d x v :
  floor_apply n d x = Ok v <-> v = share x n d /\ share x n d <= U64_MAX.
Proof.
  unfold floor_apply, share, down. destruct ((n =? 0) || (d =? 0)).
  - split; [intros [= <-]; split; [auto|unfold U64_MAX; lia]|intros [-> _]; auto].
  - cbv zeta. destruct (Z.leb_spec (x * n / d) U64_MAX); split; try discriminate; try lia.
    + intros [= <-]. auto.
    + intros [-> _]. auto.
Qed.
Lemma share_nonneg x n d : 0 <= x -> 0 <= n -> 0 <= d -> 0 <= share x n d.
Proof.
  intros. unfold share, down. destruct (Z.eqb_spec n 0), (Z.eqb_spec d 0); cbn [orb]; try lia.
  apply Z.div_pos; nia.
Qed.
Lemma share_mono x y n d : 0 <= n -> 0 <= d -> x <= y -> share x n d <= share y n d.
Proof.
  intros. unfold share, down. destruct (Z.eqb_spec n 0), (Z.eqb_spec d 0); cbn [orb]; try lia.
  apply Z.div_le_mono; nia.
Qed.
Lemma share_super x y n d : 0 <= n -> 0 <= d -> share x n d + share y n d <= share (x + y) n d.
Proof.
  intros. unfold share, down. destruct (Z.eqb_spec n 0), (Z.eqb_spec d 0); cbn [orb]; try lia.
  apply div_spec; [lia|].
  pose proof (Z.mul_div_le (x * n) d ltac:(lia)). pose proof (Z.mul_div_le (y * n) d ltac:(lia)). nia.
Qed.

(** The amount left after the SPL fee, as a floor. *)
Definition spl_rest (p : SplPool) (x : Z) : Z :=
  if sp_fee_denom p =? 0 then x else x * (sp_fee_denom p - sp_fee_num p) / sp_fee_denom p.
Lemma spl_fee_rest p x : 0 <= sp_fee_denom p -> x - spl_fee p x = spl_rest p x.
Proof.
  intros Hd. unfold spl_fee, spl_rest. destruct (Z.eqb_spec (sp_fee_denom p) 0); [lia|].
  rewrite up_ceil_div by lia. apply ceil_fee_rest. lia.
Qed.
Lemma spl_rest_mono p x y : 0 <= sp_fee_num p <= sp_fee_denom p -> x <= y -> spl_rest p x <= spl_rest p y.
Proof.
  intros. unfold spl_rest. destruct (Z.eqb_spec (sp_fee_denom p) 0); [lia|]. apply Z.div_le_mono; nia.
Qed.
Lemma spl_rest_nonneg p x : 0 <= sp_fee_num p <= sp_fee_denom p -> 0 <= x -> 0 <= spl_rest p x.
Proof.
  intros. unfold spl_rest. destruct (Z.eqb_spec (sp_fee_denom p) 0); [lia|]. apply Z.div_pos; nia.
Qed.
Lemma spl_rest_le p x : 0 <= sp_fee_num p <= sp_fee_denom p -> 0 <= x -> spl_rest p x <= x.
Proof.
  intros. unfold spl_rest. destruct (Z.eqb_spec (sp_fee_denom p) 0); [lia|].
  apply Z.div_le_upper_bound; nia.
Qed.
Lemma spl_rest_super p x y : 0 <= sp_fee_num p <= sp_fee_denom p ->
  spl_rest p x + spl_rest p y <= spl_rest p (x + y).
Proof.
  intros. unfold spl_rest. destruct (Z.eqb_spec (sp_fee_denom p) 0); [lia|]. apply div_spec; [lia|].
  set (k := sp_fee_denom p - sp_fee_num p).
  pose proof (Z.mul_div_le (x * k) (sp_fee_denom p) ltac:(lia)).
  pose proof (Z.mul_div_le (y * k) (sp_fee_denom p) ltac:(lia)). nia.
Qed.

(** The lamports left after the Marinade fee, as a ceiling. *)
Definition ma_rest (f g : Z) : Z := g - down (g * f) 1000000.
Lemma ma_rest_ceil f g : ma_rest f g = ceil_div (g * (1000000 - f)) 1000000.
Proof. unfold ma_rest, down. apply floor_fee_rest. lia. Qed.
Lemma ceil_div_mono a a' b : 0 < b -> a <= a' -> ceil_div a b <= ceil_div a' b.
Proof.
  intros Hb H. apply ceil_div_spec; auto.
  pose proof (proj1 (ceil_div_spec a' b Hb _) (Z.le_refl _)). lia.
Qed.
Lemma ceil_div_super a a' b : 0 < b -> ceil_div a b + ceil_div a' b <= ceil_div (a + a') b + 1.
Proof.
  intros Hb. unfold ceil_div.
  pose proof (Z.div_mod (a + b - 1) b ltac:(lia)). pose proof (Z.mod_pos_bound (a + b - 1) b Hb).
  pose proof (Z.div_mod (a' + b - 1) b ltac:(lia)). pose proof (Z.mod_pos_bound (a' + b - 1) b Hb).
  pose proof (Z.div_mod (a + a' + b - 1) b ltac:(lia)). pose proof (Z.mod_pos_bound (a + a' + b - 1) b Hb).
  nia.
Qed.
Lemma ceil_div_sub a a' b : 0 < b -> ceil_div (a + a') b <= ceil_div a b + ceil_div a' b.
Proof.
  intros Hb. apply ceil_div_spec; auto.
  pose proof (proj1 (ceil_div_spec a b Hb _) (Z.le_refl _)).
  pose proof (proj1 (ceil_div_spec a' b Hb _) (Z.le_refl _)). nia.
Qed.
Lemma ma_rest_mono f g g' : f <= 1000000 -> g <= g' -> ma_rest f g <= ma_rest f g'.
Proof. intros. rewrite !ma_rest_ceil. apply ceil_div_mono; nia. Qed.
Lemma ma_rest_super f g g' : ma_rest f g + ma_rest f g' <= ma_rest f (g + g') + 1.
Proof.
  rewrite !ma_rest_ceil.
  replace ((g + g') * (1000000 - f)) with (g * (1000000 - f) + g' * (1000000 - f)) by ring.
  apply ceil_div_super. lia.
Qed.
Lemma marinade_total_nonneg p : 0 <= marinade_total p.
Proof. unfold marinade_total. lia. Qed.

(** Success of each fee form. *)
Lemma ceil_fee_after_ok n d x v : 0 <= n -> 0 <= d ->
  ceil_fee_after n d x = Ok v <-> n <= d /\ v = x - ceil_fee n d x.
Proof.
  intros Hn Hd. unfold ceil_fee_after, ceil_fee_charged, ceil_fee. rewrite bind_ok.
  destruct (Z.ltb_spec d n).
  - split; [intros (a & Ha & _); discriminate|lia].
  - destruct ((n =? 0) || (d =? 0)); split.
    + intros (a & [= <-] & [= <-]). auto.
    + intros (_ & ->). eauto.
    + intros (a & [= <-] & [= <-]). auto.
    + intros (_ & ->). eauto.
Qed.
Lemma floor_fee_after_ok n d x v : 0 <= n -> 0 <= d ->
  floor_fee_after n d x = Ok v <-> n <= d /\ v = x - floor_fee n d x.
Proof.
  intros Hn Hd. unfold floor_fee_after, floor_fee_charged, floor_fee. rewrite bind_ok.
  destruct (Z.ltb_spec d n).
  - split; [intros (a & Ha & _); discriminate|lia].
  - destruct ((n =? 0) || (d =? 0)); split.
    + intros (a & [= <-] & [= <-]). auto.
    + intros (_ & ->). eauto.
    + intros (a & [= <-] & [= <-]). auto.
    + intros (_ & ->). eauto.
Qed.
Lemma ceil_fee_spl p x : 0 <= sp_fee_num p <= sp_fee_denom p ->
  ceil_fee (sp_fee_num p) (sp_fee_denom p) x = spl_fee p x.
Proof.
  intros H. unfold ceil_fee, spl_fee. destruct (Z.eqb_spec (sp_fee_denom p) 0) as [E|E].
  - now rewrite orb_true_r.
  - rewrite orb_false_r, up_ceil_div by lia. destruct (Z.eqb_spec (sp_fee_num p) 0) as [E'|E']; auto.
    rewrite E'. unfold ceil_div. rewrite Z.mul_0_r. symmetry. apply Z.div_small. lia.
Qed.
Lemma floor_fee_ma f g : floor_fee f MAX_BP_CENTS g = down (g * f) 1000000.
Proof.
  unfold floor_fee, MAX_BP_CENTS, down. destruct (Z.eqb_spec f 0) as [->|]; cbn [orb Z.eqb]; auto.
  now rewrite Z.mul_0_r.
Qed.

Lemma total_virtual_ok p t : calc_typed (CMarinade p) ->
  total_virtual_staked_lamports p = Ok t <->
  t = marinade_total p /\
  ma_total_active_balance p + ma_delayed_unstake_cooling_down p + ma_emergency_cooling_down p
    + ma_available_reserve_balance p <= U64_MAX.
Proof.
  intros (H1 & H2 & H3 & H4 & H5 & _). unfold U64 in *.
  unfold total_virtual_staked_lamports, marinade_total, sat_sub. split.
  - intros H. inv_ok.
    match goal with |- context [?c <=? ?y] => destruct (Z.leb_spec c y) end; split; lia.
  - intros (-> & Hs). unfold checked_add.
    match goal with |- context [?c <=? U64_MAX] => destruct (Z.leb_spec c U64_MAX); [cbn [bind]|lia] end.
    match goal with |- context [?c <=? U64_MAX] => destruct (Z.leb_spec c U64_MAX); [cbn [bind]|lia] end.
    match goal with |- context [?c <=? U64_MAX] => destruct (Z.leb_spec c U64_MAX); [cbn [bind]|lia] end.
    f_equal. match goal with |- context [?c <=? ?y] => destruct (Z.leb_spec c y) end; lia.
Qed.

(** The forward direction is the specified worth, exactly where the pool answers. *)
Lemma calc_lst_to_sol_any c x v : calc_typed c ->
  calc_lst_to_sol c x = Ok v <-> answers c x /\ v = (worth c x, worth c x).
Proof.
  intros Ht. destruct c as [|p|p|p]; cbn [calc_lst_to_sol].
  - unfold wsol_lst_to_sol, single; cbn. split; [intros [= <-]; auto|intros (_ & ->); auto].
  - destruct Ht as (H1 & H2 & H3 & H4 & H5). unfold U64 in *.
    unfold spl_lst_to_sol. cbn [answers worth]. rewrite bind_ok. split.
    + intros (a & Ha & H). apply ceil_fee_after_ok in Ha as (Hle & ->); [|lia..].
      rewrite ceil_fee_spl in H by lia. inv_ok.
      apply floor_apply_share in Hv as (-> & Hm). unfold single. auto.
    + intros ((Hle & Hm) & ->). exists (x - spl_fee p x). split.
      * apply ceil_fee_after_ok; [lia..|]. rewrite ceil_fee_spl by lia. auto.
      * apply bind_ok. eexists. split; [apply floor_apply_share; eauto|]. reflexivity.
  - unfold lido_lst_to_sol. cbn [answers worth]. rewrite bind_ok. split.
    + intros (a & Ha & H). apply floor_apply_share in Ha as (-> & Hm). inv_ok. auto.
    + intros (Hm & ->). eexists. split; [apply floor_apply_share; eauto|]. reflexivity.
  - unfold marinade_lst_to_sol. cbn [answers worth]. rewrite bind_ok. split.
    + intros (t & Hto & H). apply total_virtual_ok in Hto as (-> & Hs); auto. inv_ok.
      apply floor_apply_share in Hv as (-> & Hm).
      apply floor_fee_after_ok in Hv0 as (Hle & ->); [|unfold calc_typed, U64, MAX_BP_CENTS in *; lia..].
      rewrite floor_fee_ma. unfold MAX_BP_CENTS in *. unfold single. auto.
    + intros ((Hle & Hm & Hs) & ->). exists (marinade_total p). split; [apply total_virtual_ok; auto|].
      apply bind_ok. eexists. split; [apply floor_apply_share; eauto|].
      apply bind_ok. eexists. split.
      * apply floor_fee_after_ok; [unfold calc_typed, U64, MAX_BP_CENTS in *; lia..|].
        rewrite floor_fee_ma. unfold MAX_BP_CENTS. auto.
      * reflexivity.
Qed.

Lemma calc_lst_to_sol_exact c x v : calc_typed c -> 0 <= x ->
  calc_lst_to_sol c x = Ok v <-> answers c x /\ v = (worth c x, worth c x).
Proof. intros Ht _. now apply calc_lst_to_sol_any. Qed.

(** Fee at most 100%. *)
Definition fee_ok (c : PoolCalc) : Prop :=
  match c with
  | CSpl p => sp_fee_num p <= sp_fee_denom p | CMarinade p => ma_fee_cents p <= 1000000 | _ => True end.
Lemma answers_fee c x : answers c x -> fee_ok c.
Proof. destruct c; cbn; tauto. Qed.
Lemma live_fee c : calc_typed c -> calc_live c -> fee_ok c.
Proof. destruct c; unfold calc_typed, calc_live, fee_ok, U64; lia. Qed.

Lemma worth_mono c x y : calc_typed c -> fee_ok c -> x <= y -> worth c x <= worth c y.
Proof.
  destruct c as [|p|p|p]; unfold calc_typed, fee_ok, U64; intros Ht Hf Hxy; cbn [worth].
  - auto.
  - rewrite !spl_fee_rest by lia. apply share_mono; try lia. apply spl_rest_mono; lia.
  - apply share_mono; lia.
  - cbv zeta. apply (ma_rest_mono (ma_fee_cents p)); auto.
    apply share_mono; try lia. apply marinade_total_nonneg.
Qed.
Lemma worth_nonneg c x : calc_typed c -> fee_ok c -> 0 <= x -> 0 <= worth c x.
Proof.
  intros Ht Hf Hx. pose proof (worth_mono c 0 x Ht Hf Hx) as H.
  assert (worth c 0 = 0); [|lia]. clear H. destruct c as [|p|p|p]; cbn [worth]; auto.
  - unfold calc_typed, fee_ok, U64 in *. rewrite spl_fee_rest by lia.
    assert (spl_rest p 0 = 0) as ->.
    { unfold spl_rest. destruct (Z.eqb_spec (sp_fee_denom p) 0); auto. }
    unfold share, down. destruct (_ || _); auto.
  - unfold share, down. destruct (_ || _); auto.
  - assert (share 0 (marinade_total p) (ma_msol_supply p) = 0) as ->.
    { unfold share, down. destruct (_ || _); auto. }
    reflexivity.
Qed.
Lemma worth_super c x y : calc_typed c -> fee_ok c ->
  worth c x + worth c y <= worth c (x + y) + match c with CMarinade _ => 1 | _ => 0 end.
Proof.
  destruct c as [|p|p|p]; unfold calc_typed, fee_ok, U64; intros Ht Hf; cbn [worth].
  - lia.
  - rewrite !spl_fee_rest by lia. rewrite Z.add_0_r.
    etransitivity; [apply share_super; lia|]. apply share_mono; try lia. apply spl_rest_super; lia.
  - rewrite Z.add_0_r. apply share_super; lia.
  - cbv zeta. pose proof (marinade_total_nonneg p).
    etransitivity; [apply (ma_rest_super (ma_fee_cents p))|].
    pose proof (share_super x y (marinade_total p) (ma_msol_supply p) ltac:(lia) ltac:(lia)) as Hs.
    pose proof (ma_rest_mono (ma_fee_cents p) _ _ ltac:(lia) Hs). unfold ma_rest in *. lia.
Qed.
Lemma answers_down c x y : calc_typed c -> x <= y -> answers c y -> answers c x.
Proof.
  intros Ht Hxy Ha. pose proof (worth_mono c x y Ht (answers_fee _ _ Ha) Hxy).
  destruct c as [|p|p|p]; cbn [answers] in *; auto.
  - destruct Ha; split; lia.
  - lia.
  - destruct Ha as (Hf & Hs & Hb). split; [auto|]. split; [|auto].
    pose proof (marinade_total_nonneg p). unfold calc_typed, U64 in Ht.
    pose proof (share_mono x y (marinade_total p) (ma_msol_supply p)). lia.
Qed.

(** The reverse direction brackets. *)
Lemma try_from_min_max_ok lo hi v : try_from_min_max lo hi = Ok v -> v = (lo, hi) /\ lo <= hi.
Proof. unfold try_from_min_max. intros H. inv_ok. auto. Qed.

Lemma calc_sol_to_lst_bracket R c s lo hi :
  ratio_lib_ok R -> calc_typed c -> calc_live c -> U64 s ->
  calc_sol_to_lst R c s = Ok (lo, hi) ->
  lo <= hi /\ U64 lo /\ U64 hi /\
  (forall x, 0 <= x -> s <= worth c x -> lo <= x) /\
  (forall x, U64 x -> answers c x -> worth c x <= s -> x <= hi).
Proof.
  intros (R1 & R2 & R3 & R4 & R5 & R6) Ht Hl Hs H.
  pose proof (fun n d y lo hi H a b c => R1 n d y lo hi a b c H) as R1'.
  pose proof (fun n d y lo hi H a b => R2 n d y lo hi a b H) as R2'.
  pose proof (fun n d y lo hi H a b => R3 n d y lo hi a b H) as R3'.
  destruct c as [|p|p|p]; cbn [calc_sol_to_lst] in H.
  - unfold wsol_sol_to_lst, single in H. inv_ok. cbn [worth]. unfold U64 in *. repeat split; intros; lia.
  - unfold calc_typed, calc_live, U64 in Ht, Hl, Hs. unfold spl_sol_to_lst in H. inv_ok.
    apply try_from_min_max_ok in H as ([= -> ->] & Hle).
    destruct v as (rlo, rhi), v0 as (alo, ahi), v1 as (blo, bhi); cbn [fst snd] in *.
    destruct (R1' _ _ _ _ _ Hv ltac:(lia) ltac:(lia) ltac:(lia)) as (Ul & Uh & Bl & Bh).
    assert (Hp : proper_fee (sp_fee_num p) (sp_fee_denom p)) by (unfold proper_fee; lia).
    unfold U64 in Ul, Uh.
    destruct (R2' _ _ _ _ _ Hv0 Hp ltac:(lia)) as (Ual & _ & Al & _).
    destruct (R2' _ _ _ _ _ Hv1 Hp ltac:(lia)) as (_ & Ubh & _ & Ah).
    split; [auto|]. split; [auto|]. split; [auto|]. cbn [worth]. unfold share, down.
    destruct (Z.eqb_spec (sp_total_lamports p) 0); [lia|].
    destruct (Z.eqb_spec (sp_pool_token_supply p) 0); [lia|]. cbn [orb]. split; intros x Hx.
    + intros Hw. apply Al; auto. rewrite ceil_fee_spl by lia. rewrite spl_fee_rest in * by lia.
      apply Bl; auto. apply spl_rest_nonneg; lia.
    + intros _ Hw. unfold U64 in Hx. apply Ah; [lia|]. rewrite ceil_fee_spl by lia.
      rewrite spl_fee_rest in * by lia. apply Bh; auto.
      pose proof (spl_rest_nonneg p x). pose proof (spl_rest_le p x). lia.
  - unfold calc_typed, calc_live in Ht, Hl. unfold lido_sol_to_lst in H.
    pose proof (R4 _ _ _ _ _ H) as (_ & _ & Hle). unfold U64 in Hs.
    destruct (R1' _ _ _ _ _ H ltac:(lia) ltac:(lia) ltac:(lia)) as (Ul & Uh & Bl & Bh).
    split; [auto|]. split; [auto|]. split; [auto|]. cbn [worth]. unfold share, down.
    destruct (Z.eqb_spec (li_sol_balance p) 0); [lia|].
    destruct (Z.eqb_spec (li_st_sol_supply p) 0); [lia|]. cbn [orb]. split; intros x Hx.
    + apply Bl; auto.
    + intros _. apply Bh; auto.
  - unfold calc_live in Hl. unfold marinade_sol_to_lst in H. inv_ok.
    apply try_from_min_max_ok in H as ([= -> ->] & Hle).
    apply total_virtual_ok in Hv0 as (-> & Hsum); auto.
    unfold calc_typed, U64 in Ht. unfold U64 in Hs.
    destruct v as (rlo, rhi), v1 as (alo, ahi), v2 as (blo, bhi); cbn [fst snd] in *.
    assert (Hp : proper_fee (ma_fee_cents p) MAX_BP_CENTS) by (unfold proper_fee, MAX_BP_CENTS; lia).
    destruct (R3' _ _ _ _ _ Hv Hp ltac:(lia)) as (Ul & Uh & Bl & Bh). unfold U64 in Ul, Uh.
    destruct (R1' _ _ _ _ _ Hv1 ltac:(lia) ltac:(lia) ltac:(lia)) as (Ual & _ & Al & _).
    destruct (R1' _ _ _ _ _ Hv2 ltac:(lia) ltac:(lia) ltac:(lia)) as (_ & Ubh & _ & Ah).
    split; [auto|]. split; [auto|]. split; [auto|]. cbn [worth answers]. unfold share, down.
    destruct (Z.eqb_spec (marinade_total p) 0); [lia|].
    destruct (Z.eqb_spec (ma_msol_supply p) 0); [lia|]. cbn [orb]. cbv zeta. split; intros x Hx.
    + intros Hw. apply Al; auto. apply Bl.
      * apply Z.div_pos; nia.
      * rewrite floor_fee_ma. unfold down. auto.
    + intros (_ & Hgr & _) Hw. apply Ah; auto. apply Bh.
      * split; [|auto]. unfold U64 in Hx. apply Z.div_pos; nia.
      * rewrite floor_fee_ma. unfold down. auto.
Qed.
