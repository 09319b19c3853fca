(** C62: no arbitrage against the pool. *)
From Coq Require Import ZArith List Bool Lia.
From Verif Require Import Base Ratio State Controller Spec InvProofs AdminSpec Periph PeriphSpec Deploy DeploySpec HistSpec HistProofs
  ShapeProofs Concrete ConcreteReach PropState PropAccess PropHistory ArbSpec.
Import ListNotations.
Open Scope Z_scope.

Lemma sum_le {A} (f g : A -> Z) l : (forall x, In x l -> f x <= g x) -> sumZ (map f l) <= sumZ (map g l).
Proof.
  induction l as [|x l IH]; intros H; cbn; [lia|]. pose proof (H x (or_introl eq_refl)). assert (sumZ (map f l) <= sumZ (map g l)); [|lia].
  apply IH. intros y Hy. apply H. now right.
Qed.
Lemma sum_eq_le {A} (f g : A -> Z) l : (forall x, In x l -> f x <= g x) -> sumZ (map g l) <= sumZ (map f l) -> forall x, In x l -> f x = g x.
Proof.
  induction l as [|x l IH]; intros H Hs y Hy; [destruct Hy|]. cbn in Hs. pose proof (H x (or_introl eq_refl)).
  assert (Hl : forall z, In z l -> f z <= g z) by (intros z Hz; apply H; now right).
  pose proof (sum_le f g l Hl). destruct Hy as [<-|Hy]; [lia|]. apply IH; auto. lia.
Qed.
Lemma sum_nonneg {A} (f : A -> Z) l : (forall x, In x l -> 0 <= f x) -> 0 <= sumZ (map f l).
Proof. intros H. replace 0 with (sumZ (map (fun _ : A => 0) l)); [now apply sum_le|]. clear H. induction l; cbn; lia. Qed.

Section Arb.
Context (D : Derive) (HD : derive_ok D).

Lemma total_listed w : reachable D w -> total w = match the_list w with Some l => sumZ (map sol_value l) | None => 0 end.
Proof.
  intros Hr. destruct (C01_total_is_sum D w HD Hr) as (l & -> & H1 & H2). unfold total.
  destruct (the_pool w) as [ps|]; [now apply H2|]. now rewrite (H1 eq_refl).
Qed.
(** The records cover no more than the holdings; if fresh, they are the holdings. *)
Lemma held_covers V w : reachable D w -> covered D V w -> total w <= holdings D V w.
Proof.
  intros Hr Hc. rewrite (total_listed w Hr). unfold holdings. destruct (the_list w) as [l|] eqn:Hl; [|lia].
  apply sum_le. intros ls Hin. destruct (C39_listed_accounts_exist D w l ls HD Hr Hl Hin) as (_ & _ & r & f & tr & tf & Hf & Hcr & _).
  pose proof (Hc l ls r Hl Hin Hcr) as H. unfold in_pool, reserves_key. rewrite Hf. exact H.
Qed.
Lemma held_fresh V w : reachable D w -> freshly_measured D V w -> total w = holdings D V w.
Proof.
  intros Hr Hc. rewrite (total_listed w Hr). unfold holdings. destruct (the_list w) as [l|] eqn:Hl; [|reflexivity].
  f_equal. apply map_ext_in. intros ls Hin. exact (Hc l ls Hl Hin).
Qed.
Lemma in_pool_nonneg w m : reachable D w -> 0 <= in_pool D w m.
Proof.
  intros Hr. unfold in_pool, balance. destruct (w_tok w _) as [t|] eqn:E; [|lia].
  exact (proj1 (proj1 (base_u64 w (proj1 (reachable_inv D HD w Hr))) _ _ E)).
Qed.

(** The arithmetic core: from the value per LP token (C44) to the holdings. *)
Lemma arb_holdings V0 V M z w0 w : reachable D w0 -> reachable D w -> covered D V w -> freshly_measured D V0 w0 ->
  the_record w0 = None -> the_record w = None -> 0 < M -> M <= lp_supply w0 ->
  (backing w * M + z * lp_supply w) * lp_supply w0 >= backing w0 * M * lp_supply w ->
  (holdings D V w * M + z * lp_supply w) * lp_supply w0 >= holdings D V0 w0 * M * lp_supply w.
Proof.
  intros H0 H Hc Hf N0 N HM HM0 Hv. unfold backing in Hv. rewrite N0, N in Hv. rewrite <- (held_fresh V0 w0 H0 Hf).
  pose proof (held_covers V w H Hc) as Hle. set (h := holdings D V w) in *. set (t := total w) in *.
  assert (t * M <= h * M) by (apply Z.mul_le_mono_nonneg_r; lia).
  assert ((t * M + z * lp_supply w) * lp_supply w0 <= (h * M + z * lp_supply w) * lp_supply w0) by (apply Z.mul_le_mono_nonneg_r; lia).
  lia.
Qed.
Lemma arb_nothing V w0 w : val_ok V -> reachable D w0 -> reachable D w -> listed_mints w = listed_mints w0 ->
  0 < lp_supply w0 <= lp_supply w ->
  holdings D V w * lp_supply w0 >= holdings D V w0 * lp_supply w ->
  (forall m, In m (listed_mints w) -> in_pool D w m <= in_pool D w0 m) ->
  forall m, In m (listed_mints w) -> V m (in_pool D w m) = V m (in_pool D w0 m).
Proof.
  intros HV H0 H Hm HS Hh Hle.
  assert (Hs : forall x, the_list x <> None -> holdings D V x = sumZ (map (fun m => V m (in_pool D x m)) (listed_mints x))).
  { intros x Hx. unfold holdings, listed_mints. destruct (the_list x) as [l|]; [|congruence]. now rewrite map_map. }
  assert (L0 : the_list w0 <> None) by (destruct (C01_total_is_sum D w0 HD H0) as (l & -> & _); discriminate).
  assert (L : the_list w <> None) by (destruct (C01_total_is_sum D w HD H) as (l & -> & _); discriminate).
  rewrite (Hs w L), (Hs w0 L0), <- Hm in Hh. set (ms := listed_mints w) in *.
  apply sum_eq_le; [intros m Hin; apply HV; auto|].
  assert (0 <= sumZ (map (fun m => V m (in_pool D w0 m)) ms)) by (apply sum_nonneg; intros m _; apply HV, in_pool_nonneg, H0).
  set (a := sumZ (map (fun m => V m (in_pool D w0 m)) ms)) in *. set (b := sumZ (map (fun m => V m (in_pool D w m)) ms)) in *.
  assert (a * lp_supply w0 <= b * lp_supply w0) by (assert (a * lp_supply w0 <= a * lp_supply w) by (apply Z.mul_le_mono_nonneg_l; lia); lia).
  nia.
Qed.

(** From any point at which the pool has been measured, whatever everybody does until any later point - any number of
    swaps, deposits, redemptions, rebalances, by anyone, in any order, while rates only rise - the lamports the pool
    holds per LP token fall by at most z/M, z the roundings of redemptions that their fees did not make up for. *)
Theorem C62_holdings M r00 g z0 r0 w0 z r w : genesis D g -> fair_history D 0 r00 g z0 r0 w0 ->
  freshly_measured D (worth_at r0) w0 -> 0 < M -> fair_history D M r0 w0 z r w ->
  the_record w0 = None -> the_record w = None ->
  (holdings D (worth_at r) w * M + z * lp_supply w) * lp_supply w0 >= holdings D (worth_at r0) w0 * M * lp_supply w.
Proof.
  intros Hg Hh0 Hf HM Hh N0 N. pose proof (C44_value_per_token D M r00 g z0 r0 w0 z r w HD Hg Hh0 HM Hh) as Hv.
  pose proof (genesis_covered D (worth_at r00) g Hg) as Hc.
  destruct (fair_gen D 0 r00 g z0 r0 w0 HD (reach_genesis _ _ Hg) Hc Hh0) as (_ & HG).
  destruct (gen_end D HD 0 _ _ _ _ _ (reach_genesis _ _ Hg) Hc HG) as (_ & Hr & Hc0 & _).
  destruct (fair_gen D M r0 w0 z r w HD Hr Hc0 Hh) as (_ & HG2).
  destruct (gen_end D HD M _ _ _ _ _ Hr Hc0 HG2) as (_ & Hrw & Hcw & _ & _ & HM0).
  exact (arb_holdings _ _ M z w0 w Hr Hrw Hcw Hf N0 N HM HM0 Hv).
Qed.

(** So there is no arbitrage: if at the end no LST's reserves hold more than at the start and no LP tokens were given up,
    what was taken out is worth not one lamport. *)
Theorem C62_no_arbitrage M r00 g z0 r w0 w : genesis D g -> fair_history D 0 r00 g z0 r w0 ->
  freshly_measured D (worth_at r) w0 -> 0 < M -> fair_history D M r w0 0 r w ->
  the_record w0 = None -> the_record w = None -> listed_mints w = listed_mints w0 -> lp_supply w0 <= lp_supply w ->
  (forall m, In m (listed_mints w) -> in_pool D w m <= in_pool D w0 m) ->
  forall m, In m (listed_mints w) -> worth_at r m (in_pool D w m) = worth_at r m (in_pool D w0 m).
Proof.
  intros Hg Hh0 Hf HM Hh N0 N Hm HS Hle.
  pose proof (C62_holdings M r00 g z0 r w0 0 r w Hg Hh0 Hf HM Hh N0 N) as Hv.
  pose proof (genesis_covered D (worth_at r00) g Hg) as Hc.
  destruct (fair_gen D 0 r00 g z0 r w0 HD (reach_genesis _ _ Hg) Hc Hh0) as (Hok & HG).
  destruct (gen_end D HD 0 _ _ _ _ _ (reach_genesis _ _ Hg) Hc HG) as (_ & Hr & Hc0 & _).
  destruct (fair_gen D M r w0 0 r w HD Hr Hc0 Hh) as (_ & HG2).
  destruct (gen_end D HD M _ _ _ _ _ Hr Hc0 HG2) as (HV & Hrw & Hcw & _ & _ & HM0).
  apply (arb_nothing (worth_at r) w0 w HV Hr Hrw Hm); [lia| |exact Hle].
  apply Z.le_ge, (Z.mul_le_mono_pos_l _ _ M HM). lia.
Qed.

(** If a unit of each LST is worth a lamport or more, not one token was: whoever lowers the reserves of one LST raises
    those of another. *)
Corollary C62_not_a_token M r00 g z0 r w0 w : genesis D g -> fair_history D 0 r00 g z0 r w0 -> at_least_par r ->
  freshly_measured D (worth_at r) w0 -> 0 < M -> fair_history D M r w0 0 r w ->
  the_record w0 = None -> the_record w = None -> listed_mints w = listed_mints w0 -> lp_supply w0 <= lp_supply w ->
  (forall m, In m (listed_mints w) -> in_pool D w m <= in_pool D w0 m) ->
  forall m, In m (listed_mints w) -> in_pool D w m = in_pool D w0 m.
Proof.
  intros Hg Hh0 Hp Hf HM Hh N0 N Hm HS Hle m Hin.
  pose proof (C62_no_arbitrage M r00 g z0 r w0 w Hg Hh0 Hf HM Hh N0 N Hm HS Hle m Hin) as He.
  pose proof (Hle m Hin) as Hl. destruct (Z.eq_dec (in_pool D w m) (in_pool D w0 m)) as [|Hne]; [assumption|exfalso].
  assert (Hok : rates_ok r).
  { pose proof (genesis_covered D (worth_at r00) g Hg) as Hc.
    exact (proj1 (fair_gen D 0 r00 g z0 r w0 HD (reach_genesis _ _ Hg) Hc Hh0)). }
  destruct (Hok m) as (Hn & Hd). specialize (Hp m). unfold worth_at in He.
  assert (Hlt : in_pool D w m + 1 <= in_pool D w0 m) by lia.
  assert (in_pool D w m * fst (r m) / snd (r m) + 1 <= in_pool D w0 m * fst (r m) / snd (r m)); [|lia].
  rewrite <- (Z.div_add _ 1) by lia. apply Z.div_le_mono; [lia|]. nia.
Qed.

(** The same with the shipped calculators and pricing programs, the stake pools' own valuations in place of rates. *)
Theorem C62_shipped_holdings R dp M cs00 g z0 cs0 w0 z cs w : genesis D g -> shipped_history D R dp 0 cs00 g z0 cs0 w0 ->
  freshly_measured D (fun m => worth (cs0 m)) w0 -> 0 < M -> shipped_history D R dp M cs0 w0 z cs w ->
  the_record w0 = None -> the_record w = None ->
  (holdings D (fun m => worth (cs m)) w * M + z * lp_supply w) * lp_supply w0 >=
  holdings D (fun m => worth (cs0 m)) w0 * M * lp_supply w.
Proof.
  intros Hg Hh0 Hf HM Hh N0 N. pose proof (C44_shipped_value D R dp M cs00 g z0 cs0 w0 z cs w HD Hg Hh0 HM Hh) as Hv.
  pose proof (genesis_covered D (pool_val cs00) g Hg) as Hc.
  destruct (shipped_gen D R dp 0 cs00 g z0 cs0 w0 HD (reach_genesis _ _ Hg) Hc Hh0) as (_ & HG).
  destruct (gen_end D HD 0 _ _ _ _ _ (reach_genesis _ _ Hg) Hc HG) as (_ & Hr & Hc0 & _).
  destruct (shipped_gen D R dp M cs0 w0 z cs w HD Hr Hc0 Hh) as (_ & HG2).
  destruct (gen_end D HD M _ _ _ _ _ Hr Hc0 HG2) as (_ & Hrw & Hcw & _ & _ & HM0).
  exact (arb_holdings (pool_val cs0) (pool_val cs) M z w0 w Hr Hrw Hcw Hf N0 N HM HM0 Hv).
Qed.
Theorem C62_shipped_no_arbitrage R dp M cs00 g z0 cs w0 w : genesis D g -> shipped_history D R dp 0 cs00 g z0 cs w0 ->
  freshly_measured D (fun m => worth (cs m)) w0 -> 0 < M -> shipped_history D R dp M cs w0 0 cs w ->
  the_record w0 = None -> the_record w = None -> listed_mints w = listed_mints w0 -> lp_supply w0 <= lp_supply w ->
  (forall m, In m (listed_mints w) -> in_pool D w m <= in_pool D w0 m) ->
  forall m, In m (listed_mints w) -> worth (cs m) (in_pool D w m) = worth (cs m) (in_pool D w0 m).
Proof.
  intros Hg Hh0 Hf HM Hh N0 N Hm HS Hle.
  pose proof (C62_shipped_holdings R dp M cs00 g z0 cs w0 0 cs w Hg Hh0 Hf HM Hh N0 N) as Hv.
  pose proof (genesis_covered D (pool_val cs00) g Hg) as Hc.
  destruct (shipped_gen D R dp 0 cs00 g z0 cs w0 HD (reach_genesis _ _ Hg) Hc Hh0) as (Hok & HG).
  destruct (gen_end D HD 0 _ _ _ _ _ (reach_genesis _ _ Hg) Hc HG) as (_ & Hr & Hc0 & _).
  destruct (shipped_gen D R dp M cs w0 0 cs w HD Hr Hc0 Hh) as (_ & HG2).
  destruct (gen_end D HD M _ _ _ _ _ Hr Hc0 HG2) as (HV & Hrw & Hcw & _ & _ & HM0).
  apply (arb_nothing (pool_val cs) w0 w HV Hr Hrw Hm); [lia| |exact Hle].
  unfold pool_val in *. apply Z.le_ge, (Z.mul_le_mono_pos_l _ _ M HM). lia.
Qed.
End Arb.

(** ** A history these theorems apply to *)
(** Concrete.v's pool with LP tokens minted against both LSTs, just measured; then two swaps, a redemption and a rebalance. *)
Definition freshb (w : World) : bool := match the_list w with
  | Some l => forallb (fun ls => sol_value ls =? worth_at r_ex (ls_mint ls) (in_pool D0 w (ls_mint ls))) l | None => true end.
Lemma freshb_ok w : freshb w = true -> freshly_measured D0 (worth_at r_ex) w.
Proof. unfold freshb. intros H l ls Hl Hin. rewrite Hl in H. rewrite forallb_forall in H. now apply Z.eqb_eq, H. Qed.
Definition S5 := process D0 E0 C0 W5 sync_accs (SyncSolValue 1).
Definition W5s := get S5.

Ltac go_step := apply go_ex; [|vm_compute; reflexivity|vm_compute; reflexivity|vm_compute; reflexivity|apply honest_ex|vm_compute; reflexivity|exact I].
Example C62_case :
  genesis D0 W0 /\ fair_history D0 0 r_ex W0 0 r_ex W5 /\ freshly_measured D0 (worth_at r_ex) W5 /\ at_least_par r_ex /\
  fair_history D0 1800000 r_ex W5 0 r_ex W7 /\ fair_history D0 1800000 r_ex W5 0 r_ex W11 /\
  fair_history D0 1800000 r_ex W5 0 r_ex W5s /\
  the_record W5 = None /\ the_record W7 = None /\ the_record W11 = None /\ the_record W5s = None /\
  listed_mints W5 = [MA; MB] /\ listed_mints W7 = [MA; MB] /\ listed_mints W5s = [MA; MB] /\
  (holdings D0 (worth_at r_ex) W5, lp_supply W5) = (1998000, 1971081) /\
  (holdings D0 (worth_at r_ex) W7, lp_supply W7) = (1998146, 1971081) /\
  (holdings D0 (worth_at r_ex) W11, lp_supply W11) = (1897688, 1871081) /\
  (in_pool D0 W5 MA, in_pool D0 W5 MB, in_pool D0 W7 MA, in_pool D0 W7 MB) = (999000, 499500, 1015064, 491541) /\
  (forall m, In m (listed_mints W5s) -> in_pool D0 W5s m <= in_pool D0 W5 m).
Proof.
  destruct rates_ex as (K1 & K2 & K3).
  assert (H5 : fair_history D0 0 r_ex W0 0 r_ex W5).
  { unfold W5, R5. go_step. unfold W4, R4. go_step. unfold W3, R3. go_step. unfold W2, R2. go_step. unfold W1, R1. go_step.
    apply fair_start; auto. vm_compute. discriminate. }
  assert (H7 : fair_history D0 1800000 r_ex W5 0 r_ex W7).
  { unfold W7, R7. go_step. unfold W6, R6. go_step. apply fair_start; auto. vm_compute. discriminate. }
  assert (H11 : fair_history D0 1800000 r_ex W5 0 r_ex W11).
  { unfold W11, R11. go_step.
    replace 0 with (0 + 0) by reflexivity.
    eapply fair_go; [|apply fair_external; [|reflexivity]|vm_compute; discriminate].
    2:{ eapply (transfer_external D0 W9 SPL_TOKEN_2022_ID UB RB MB USER true 5000); [| |lia| |].
        - apply base_u64. exact (proj1 (reachable_inv D0 D0_ok _ W9_reach)).
        - exact (proj1 (reachable_ata D0 D0_ok _ W9_reach)).
        - unfold USER. cbn. unfold POOL_STATE_ID, LST_STATE_LIST_ID, DISABLE_POOL_AUTHORITY_LIST_ID,
            REBALANCE_RECORD_ID, PROTOCOL_FEE_ID. intuition lia.
        - unfold W10, R10. apply okb_get. vm_compute. reflexivity. }
    unfold W9, R9. go_step.
    unfold W8, R8. apply go_ex; [|vm_compute; reflexivity|vm_compute; reflexivity|vm_compute; reflexivity|apply honest_ex|vm_compute; reflexivity|exact redeem_ex].
    exact H7. }
  assert (H5s : fair_history D0 1800000 r_ex W5 0 r_ex W5s).
  { unfold W5s, S5. go_step. apply fair_start; auto. vm_compute. discriminate. }
  split; [exact W0_genesis|]. split; [exact H5|]. split; [apply freshb_ok; vm_compute; reflexivity|].
  split; [intros m; unfold r_ex; destruct (m =? MB); cbn; lia|].
  split; [exact H7|]. split; [exact H11|]. split; [exact H5s|].
  do 11 (split; [vm_compute; reflexivity|]).
  intros m Hin.
  assert (Q : forallb (fun m => in_pool D0 W5s m <=? in_pool D0 W5 m) (listed_mints W5s) = true) by (vm_compute; reflexivity).
  rewrite forallb_forall in Q. apply Z.leb_le, Q, Hin.
Qed.

(** The records must be fresh at the start: nothing forces the other LSTs' to be measured when LP tokens are minted.
    When the second LST has earned rewards that nobody has recorded yet, whoever deposits the first dilutes them. *)
Definition S11 := process D0 E_up C0 W11 (liq_accs MA UA FA SPL_TOKEN_ID RA CA) (AddLiquidity (mkAddLiq 1 0 100000 1)).
Example C62_stale_dilutes :
  process D0 E_up C0 W11 (liq_accs MA UA FA SPL_TOKEN_ID RA CA) (AddLiquidity (mkAddLiq 1 0 100000 1)) = Ok (get S11) /\
  fair_history D0 1800000 r_up W11 0 r_up (get S11) /\ ~ freshly_measured D0 (worth_at r_up) W11 /\
  (holdings D0 (worth_at r_up) W11, lp_supply W11) = (2344000, 1871081) /\
  (holdings D0 (worth_at r_up) (get S11), lp_supply (get S11)) = (2443900, 1968692) /\
  holdings D0 (worth_at r_up) (get S11) * lp_supply W11 < holdings D0 (worth_at r_up) W11 * lp_supply (get S11).
Proof.
  destruct rates_ex as (K1 & K2 & K3).
  split; [unfold S11; apply okb_get; vm_compute; reflexivity|].
  split.
  { unfold S11. go_step. apply fair_start; auto. vm_compute. discriminate. }
  split; [|split; [vm_compute; reflexivity|split; [vm_compute; reflexivity|vm_compute; reflexivity]]].
  intros H. unfold freshly_measured in H.
  destruct (the_list W11) as [l|] eqn:E; [|assert (Q : the_list W11 <> None) by (vm_compute; discriminate); congruence].
  assert (Q : match the_list W11 with Some l => existsb (fun ls => negb (sol_value ls =? worth_at r_up (ls_mint ls) (in_pool D0 W11 (ls_mint ls)))) l | None => false end = true) by (vm_compute; reflexivity).
  rewrite E in Q. apply existsb_exists in Q as (ls & Hin & Hne). rewrite (H l ls eq_refl Hin), Z.eqb_refl in Hne. discriminate.
Qed.
