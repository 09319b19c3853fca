(** Proofs for the client following the chain (C43). *)
From Coq Require Import ZArith List Bool Lia.
From Verif Require Import Base Ratio Calc State Controller Inversion ProcInv Spec InvProofs AccessProofs ShapeProofs
  Periph PeriphSpec PeriphProofs PropFlat Client Deploy Known Jup JupSpec JupProofs JupPool.
Import ListNotations.
Open Scope Z_scope.

(* ------------------------------------------------------------------ *)
(** * The chain: mints and the pool stay *)

Section Chain.
Context (D : Derive).
Hypothesis HD : derive_ok D.

Lemma process_mint E C w accs ix w' k : process D E C w accs ix = Ok w' -> ata_inv D w -> w_mint w k <> None ->
  w_mint w' k <> None /\ w_owner w' k = w_owner w k.
Proof.
  intros H (Ha & _) Hk. pose proof (process_shape D _ _ _ _ _ _ H) as Hs.
  assert (Hg : shape w w' -> w_mint w' k <> None /\ w_owner w' k = w_owner w k).
  { intros (So & _ & Sm). specialize (Sm k). rewrite So. split; auto. destruct (w_mint w k), (w_mint w' k); congruence || tauto. }
  destruct ix; try (apply Hg; exact Hs); clear Hs Hg.
  - unfold process in H. apply guard_ok in H as (Hwf & H). apply add_lst_inv in H.
    destruct H as (adm & payer & lst_mint & pr & pfa & pfaa & calc & pst & lsl & ap & sp & ltp & rest &
      ps & l0 & mi & w1 & w2 & prb & pfb & Hacc & _ & _ & _ & _ & _ & _ & _ & _ & _ & _ & F1 & F2 & Htp & Hmi & _ &
      Hp & _ & Hl0 & Hni & C1 & C2 & ->).
    pose proof (find_create _ HD _ _ _ _ _ F1) as G1. pose proof (find_create _ HD _ _ _ _ _ F2) as G2.
    assert (Ha1 : ata_ok D w1) by (eapply create_ata_ok; [exact HD|left; reflexivity|exact G1|exact C1|exact Ha]).
    assert (Hcr : forall x y ata wl pg b, wl = POOL_STATE_ID \/ wl = PROTOCOL_FEE_ID ->
      d_create D wl pg (mk lst_mint) b = Some ata ->
      create_ata_if_not_exist x ata wl (mk lst_mint) pg = Ok y -> ata_ok D x ->
      w_mint y = w_mint x /\ (forall k, w_mint x k <> None -> w_owner y k = w_owner x k)).
    { intros x y ata wl pg b Hwl Hd Hc Hax. destruct (Hax _ _ _ _ _ Hwl Hd) as (An & _).
      apply create_ata_if_inv in Hc. destruct Hc as [(t & Ht & _ & ->)|(Hn & _ & _ & ->)]; [auto|].
      cbn. split; auto. intros k0 Hk0. rewrite upd_other; auto. intros ->. congruence. }
    destruct (Hcr _ _ _ _ _ _ (or_introl eq_refl) G1 C1 Ha) as (M1 & O1).
    destruct (Hcr _ _ _ _ _ _ (or_intror eq_refl) G2 C2 Ha1) as (M2 & O2).
    cbn. rewrite M2, M1. split; auto. rewrite O2, O1; auto. congruence.
  - unfold process in H. apply guard_ok in H as (Hwf & H). apply remove_lst_inv in H.
    destruct H as (adm & rf & lm & pr & pfa & pfaa & pst & lsl & ltp & rest & ps & l0 & ls & tr & tf & w1 &
      w2 & Hacc & _ & _ & _ & _ & _ & _ & _ & _ & _ & Hp & _ & Hl0 & Hn & Hm & G1 & G2 & _ & _ & Hz & _ & _ &
      C1 & C2 & ->).
    destruct (close_mint _ _ _ _ _ _ C1) as (M1 & O1). destruct (close_mint _ _ _ _ _ _ C2) as (M2 & O2).
    destruct (Ha _ _ _ _ _ (or_introl eq_refl) G1) as (N1 & _).
    destruct (Ha _ _ _ _ _ (or_intror eq_refl) G2) as (N2 & _).
    cbn. rewrite M2, M1. split; auto. rewrite O2, O1; auto; congruence.
Qed.
Lemma reachable_steps w w' : reachable D w -> steps D w w' -> reachable D w'.
Proof.
  intros (w0 & Hg & H0) Hs. exists w0. split; [exact Hg|]. revert H0. induction Hs as [|w1 w2 w3 Hs IH Hst]; intros H0; [exact H0|]. econstructor; [apply IH; exact H0|exact Hst].
Qed.
Lemma steps_keep w w' : reachable D w -> steps D w w' ->
  (forall k, w_mint w k <> None -> w_mint w' k <> None /\ w_owner w' k = w_owner w k) /\
  (forall ps, the_pool w = Some ps -> exists ps', the_pool w' = Some ps' /\ lp_token_mint ps' = lp_token_mint ps).
Proof.
  intros Hr Hs. induction Hs as [w|w1 w2 w3 Hs IH Hst].
  - split; [auto|]. intros ps Hp. exists ps. auto.
  - specialize (IH Hr). destruct IH as (I1 & I2). pose proof (reachable_steps _ _ Hr Hs) as Hr2.
    pose proof (reachable_ata D HD _ Hr2) as Hata.
    assert (S1 : (forall k, w_mint w2 k <> None -> w_mint w3 k <> None /\ w_owner w3 k = w_owner w2 k) /\
      (forall ps, the_pool w2 = Some ps -> exists ps', the_pool w3 = Some ps' /\ lp_token_mint ps' = lp_token_mint ps)).
    { destruct Hst as [Hx|E C accs ix _ Hp].
      - split.
        + intros k Hk. destruct (w_mint w2 k) as [i|] eqn:Hi; [|congruence].
          destruct (x_mint _ _ _ Hx _ _ Hi) as (Ho & i' & Hi' & _). split; [congruence|auto].
        + intros ps Hps. exists ps. rewrite (x_pool _ _ _ Hx). auto.
      - split.
        + intros k Hk. eapply process_mint; eauto.
        + intros ps Hps. destruct (process_pool_effect D _ _ _ _ _ _ _ Hp Hps) as (ps' & Hps' & He).
          exists ps'. split; auto. eapply pool_effect_lp; eauto. }
    destruct S1 as (J1 & J2). split.
    + intros k Hk. destruct (I1 k Hk) as (A & B). destruct (J1 k A). split; [auto|congruence].
    + intros ps Hps. destruct (I2 ps Hps) as (q & Hq & Eq). destruct (J2 q Hq) as (q' & Hq' & Eq').
      exists q'. split; [auto|congruence].
Qed.
End Chain.

Lemma chain_none w pw k : the_pool w <> None -> the_list w <> None -> chain_account w pw k = None ->
  w_tok w k = None /\ w_mint w k = None /\ pdata pw k = PEmpty.
Proof.
  intros Hp Hl. unfold chain_account. destruct (k =? POOL_STATE_ID); [destruct (the_pool w); cbn; congruence|].
  destruct (k =? LST_STATE_LIST_ID); [destruct (the_list w); cbn; congruence|].
  destruct (w_tok w k); [discriminate|]. destruct (w_mint w k); [discriminate|].
  destruct (pdata pw k); try discriminate. auto.
Qed.
Lemma chain_token w pw k b : chain_account w pw k = Some (FToken b) -> balance w k = b.
Proof.
  unfold chain_account. destruct (k =? POOL_STATE_ID); [destruct (the_pool w); cbn; congruence|].
  destruct (k =? LST_STATE_LIST_ID); [destruct (the_list w); cbn; congruence|].
  unfold balance. destruct (w_tok w k); [cbn; congruence|]. destruct (w_mint w k); [discriminate|].
  destruct (pdata pw k); discriminate.
Qed.
Lemma chain_mint w pw k b : chain_account w pw k = Some (FMint b) -> supply w k = b.
Proof.
  unfold chain_account. destruct (k =? POOL_STATE_ID); [destruct (the_pool w); cbn; congruence|].
  destruct (k =? LST_STATE_LIST_ID); [destruct (the_list w); cbn; congruence|].
  destruct (w_tok w k); [discriminate|]. unfold supply. destruct (w_mint w k); [cbn; congruence|].
  destruct (pdata pw k); discriminate.
Qed.
Lemma chain_data w pw k d : chain_account w pw k = Some (FData d) -> pdata pw k = d /\ d <> PEmpty.
Proof.
  unfold chain_account. destruct (k =? POOL_STATE_ID); [destruct (the_pool w); cbn; congruence|].
  destruct (k =? LST_STATE_LIST_ID); [destruct (the_list w); cbn; congruence|].
  destruct (w_tok w k); [discriminate|]. destruct (w_mint w k); [discriminate|].
  destruct (pdata pw k); intros [= <-]; split; congruence.
Qed.
Lemma chain_pool w pw ps : chain_account w pw POOL_STATE_ID = Some (FPool ps) -> the_pool w = Some ps.
Proof. unfold chain_account. rewrite Z.eqb_refl. destruct (the_pool w); cbn; congruence. Qed.
Lemma chain_list w pw l : chain_account w pw LST_STATE_LIST_ID = Some (FList l) -> the_list w = Some l.
Proof.
  unfold chain_account. change (LST_STATE_LIST_ID =? POOL_STATE_ID) with false. rewrite Z.eqb_refl. cbn [option_map].
  destruct (the_list w); cbn; congruence.
Qed.
Lemma Forall2_length {A B} (P : A -> B -> Prop) l d : Forall2 P l d -> length l = length d.
Proof. induction 1; cbn; congruence. Qed.
Arguments Forall2_length {A B P l d}.
Lemma Forall2_impl {A B} (P Q : A -> B -> Prop) l d : (forall a b, P a b -> Q a b) -> Forall2 P l d -> Forall2 Q l d.
Proof. induction 2; constructor; auto. Qed.
Lemma and_ok a b : and_res a b = Ok tt -> a = Ok tt /\ b = Ok tt.
Proof. destruct a as [[]|]; cbn; [auto|discriminate]. Qed.

(* ------------------------------------------------------------------ *)
(** * The client *)

Section Client.
Context (R : RatioLib) (dp : Deploy) (D : Derive) (lsts : list SanctumLst).
Notation F := (dp_flat dp).
Hypothesis HD : derive_ok D.
Hypothesis HF : flat_derive_ok F.

Definition named (ls : LstState) (ld : LstData) : Prop :=
  kn_lst_mint dp (ld_calc ld) = ls_mint ls /\ kn_program_id dp (ld_calc ld) = sol_value_calculator ls.
Definition entry_ok (w : World) (ls : LstState) (ld : LstData) : Prop :=
  named ls ld /\ ld_token_program ld = w_owner w (ls_mint ls) /\ w_mint w (ls_mint ls) <> None /\
  pool_reserves_bump ls = snd (d_find D POOL_STATE_ID (w_owner w (ls_mint ls)) (ls_mint ls)).
Definition fees_ok (p : KnownFlat) : Prop :=
  forall m b i o, In (m, Some (b, i, o)) (kf_fees p) -> fd_create F m b = Some (fst (fd_find F m)).
Record aligned (w : World) (pw : PWorld) (SP : SPool) : Prop := {
  al_reach : reachable D w;
  al_flat : flat_reachable R F pw;
  al_init : the_pool w <> None;
  al_nodup : NoDup (map ls_mint (jp_list SP));
  al_data : Forall2 (fun ls x => forall ld, x = Some ld -> entry_ok w ls ld) (jp_list SP) (jp_data SP);
  al_keys : forall p ld, jp_pricing SP = Some p -> In (Some ld) (jp_data SP) -> In (kn_lst_mint dp (ld_calc ld)) (map fst (kf_fees p));
  al_fees : forall p, jp_pricing SP = Some p -> fees_ok p;
  al_state : forall p, jp_pricing SP = Some p -> kf_state p <> None -> flat_manager F pw <> None;
  al_pool : match jp_pool SP with
            | None => jp_pricing SP = None
            | Some ps0 => (jp_pricing SP <> None <-> pricing_program ps0 = ff_id F) /\
                forall ps, the_pool w = Some ps -> lp_token_mint ps = lp_token_mint ps0
            end }.

Lemma list_some w : reachable D w -> exists l, the_list w = Some l /\ NoDup (map ls_mint l) /\ Forall (lst_accounts D w) l.
Proof.
  intros Hr. destruct (reachable_inv D HD w Hr) as ((l & au & Hl & _ & Hnd & _) & _).
  destruct (reachable_ata D HD w Hr) as (_ & Ha & _). exists l. auto.
Qed.

(** ** Start *)
Lemma try_lst_data_ok w ls ld : known_lsts_ok dp w lsts -> lst_accounts D w ls -> try_lst_data dp lsts ls = Some ld -> entry_ok w ls ld.
Proof.
  intros Hk (_ & Hm & r & f & F1 & _ & _). unfold try_lst_data.
  destruct (find (fun s => sl_mint s =? ls_mint ls) lsts) as [s|] eqn:Hf; [|discriminate].
  apply find_some in Hf as (Hin & Es). apply Z.eqb_eq in Es. destruct (Hk s Hin) as (Ht & Hp). rewrite Es in Ht.
  intros H. unfold entry_ok, named. rewrite F1. cbn [snd].
  destruct (sl_pool s) as [| | |which pool|]; try discriminate;
    match type of H with context [?a =? ?b] => destruct (Z.eqb_spec a b) as [E|E]; [|discriminate] end;
    injection H as <-; cbn [ld_calc ld_token_program kn_lst_mint] in *; repeat split; auto; congruence.
Qed.
Lemma aligned_list w pw l e : reachable D w -> flat_reachable R F pw -> known_lsts_ok dp w lsts -> the_pool w <> None ->
  the_list w = Some l -> aligned w pw (from_lst_state_list_account dp l lsts e).
Proof.
  intros Hr Hfl Hk Hp Hl. destruct (list_some w Hr) as (l' & Hl' & Hnd & Ha). assert (l' = l) by congruence. subst l'.
  constructor; cbn [from_lst_state_list_account jp_list jp_data jp_pricing jp_pool]; auto; try discriminate.
  clear Hl Hl' Hnd. induction Ha as [|ls l Hx Ha IH]; cbn [map]; constructor; auto.
  intros ld Hld. eapply try_lst_data_ok; eauto.
Qed.
Lemma data_in_list w pw SP ld : aligned w pw SP -> In (Some ld) (jp_data SP) -> exists n ls,
  nth_error (jp_list SP) n = Some ls /\ nth_error (jp_data SP) n = Some (Some ld) /\ entry_ok w ls ld.
Proof.
  intros A H. apply In_nth_error in H as (n & Hn). pose proof (al_data _ _ _ A) as Hd. exists n.
  destruct (nth_error (jp_list SP) n) as [ls|] eqn:E.
  - exists ls. split; [auto|]. split; [auto|]. exact (Forall2_nth _ _ _ _ _ _ Hd E Hn ld eq_refl).
  - apply nth_error_None in E. pose proof (Forall2_length Hd) as L. assert (nth_error (jp_data SP) n <> None) by congruence.
    apply nth_error_Some in H. lia.
Qed.
Lemma aligned_init w pw l ps e SP : reachable D w -> flat_reachable R F pw -> known_lsts_ok dp w lsts -> the_pool w = Some ps ->
  the_list w = Some l -> from_init_accounts dp l ps lsts e = Ok SP -> aligned w pw SP.
Proof.
  intros Hr Hfl Hk Hp Hl H. unfold from_init_accounts in H. apply bind_ok in H as (pp & Hpp & [= <-]). apply of_option_ok in Hpp.
  unfold try_pricing_prog in Hpp. destruct (Z.eqb_spec (pricing_program ps) (ff_id F)) as [Ep|]; [|discriminate]. injection Hpp as <-.
  assert (Hp0 : the_pool w <> None) by congruence.
  pose proof (aligned_list w pw l e Hr Hfl Hk Hp0 Hl) as A.
  constructor; cbn [set_pricing set_pool jp_list jp_data jp_pricing jp_pool]; auto; try (apply A).
  - intros p ld [= <-] Hin. destruct (data_in_list _ _ _ _ A Hin) as (n & ls & H1 & _ & ((Em & _) & _)).
    cbn [kf_new kf_fees]. rewrite map_map. cbn [fst]. rewrite map_id, Em. apply in_map. eapply nth_error_In. exact H1.
  - intros p [= <-] m b i o Hin. cbn [kf_new kf_fees] in Hin. apply in_map_iff in Hin as (x & Hx & _). discriminate.
  - intros p [= <-]. cbn. congruence.
  - split; [split; congruence|]. intros ps' H'. congruence.
Qed.

(** ** The chain moves *)
Lemma aligned_chain w w' pw SP : aligned w pw SP -> steps D w w' -> aligned w' pw SP.
Proof.
  intros A Hs. destruct (steps_keep D HD _ _ (al_reach _ _ _ A) Hs) as (K1 & K2).
  constructor; try (apply A).
  - eapply reachable_steps; eauto. apply A.
  - pose proof (al_init _ _ _ A) as Hi. destruct (the_pool w) as [ps|] eqn:Hp; [|congruence].
    destruct (K2 _ eq_refl) as (ps' & -> & _). discriminate.
  - pose proof (al_data _ _ _ A) as Hd. revert Hd. apply Forall2_impl. intros ls x Hx ld ->.
    destruct (Hx ld eq_refl) as (N & T & M & B). destruct (K1 _ M) as (M' & O'). unfold entry_ok. rewrite O'. auto.
  - pose proof (al_pool _ _ _ A) as Hp. destruct (jp_pool SP) as [ps0|]; [|auto]. destruct Hp as (H1 & H2). split; [auto|].
    intros ps' Hps'. pose proof (al_init _ _ _ A) as Hi. destruct (the_pool w) as [ps|] eqn:Hp; [|congruence].
    destruct (K2 _ eq_refl) as (q & Hq & Eq). rewrite <- (H2 _ eq_refl). congruence.
Qed.
Lemma aligned_periph w pw pw' SP : aligned w pw SP -> flat_steps R F pw pw' -> aligned w pw' SP.
Proof.
  intros A Hs. constructor; try (apply A).
  - destruct (al_flat _ _ _ A) as (pw0 & H0 & Hs0). exists pw0. split; auto. clear -Hs Hs0. revert Hs0. induction Hs as [|p1 p2 p3 Hs IH Hst]; intros Hs0; [exact Hs0|]. econstructor; [apply IH; exact Hs0|exact Hst].
  - intros p Hp Hst. pose proof (al_state _ _ _ A p Hp Hst) as Hm.
    apply (C41_init_once R F pw pw' [] pw' None HF (al_flat _ _ _ A) Hs Hm).
Qed.

(** ** Updating the calculators *)
Lemma kn_update_same m k : kn_lst_mint dp (fst (kn_update dp m k)) = kn_lst_mint dp k /\
  kn_program_id dp (fst (kn_update dp m k)) = kn_program_id dp k.
Proof.
  destruct k as [c|c|s lm pl c|]; cbn [kn_update]; auto.
  - destruct (m _) as [[]|]; try (destruct d); auto.
  - destruct (m _) as [[]|]; try (destruct d); auto.
  - destruct (m pl) as [[]|]; try (destruct d); auto.
    destruct (negb _); [auto|]. destruct (negb _); auto.
Qed.
Lemma kn_update_sync w pw m k : the_pool w <> None -> the_list w <> None ->
  (forall a, In a (kn_accounts_to_update dp k) -> m a = chain_account w pw a) ->
  (k <> KnWsol -> pdata pw (stake_pool_account dp k) <> PEmpty) ->
  snd (kn_update dp m k) = Ok tt -> calc_in_sync dp pw (fst (kn_update dp m k)).
Proof.
  intros Hp Hl Hm Hst. destruct k as [c|c|s lm pl c|]; cbn [kn_update kn_accounts_to_update stake_pool_account] in *; [| | |cbn; auto].
  - rewrite (Hm _ (or_introl eq_refl)). assert (N : chain_account w pw (cfg_pool (dp_lido dp)) <> None)
      by (intros N; apply (chain_none _ _ _ Hp Hl) in N as (_ & _ & N); apply Hst; [discriminate|auto]).
    destruct (chain_account w pw (cfg_pool (dp_lido dp))) as [[| | | |d|]|] eqn:E; try congruence; try discriminate.
    destruct d; try discriminate. intros _. apply chain_data in E as (E & _). cbn. eauto.
  - rewrite (Hm _ (or_introl eq_refl)). assert (N : chain_account w pw (cfg_pool (dp_marinade dp)) <> None)
      by (intros N; apply (chain_none _ _ _ Hp Hl) in N as (_ & _ & N); apply Hst; [discriminate|auto]).
    destruct (chain_account w pw (cfg_pool (dp_marinade dp))) as [[| | | |d|]|] eqn:E; try congruence; try discriminate.
    destruct d; try discriminate. intros _. apply chain_data in E as (E & _). cbn. eauto.
  - rewrite (Hm _ (or_introl eq_refl)). assert (N : chain_account w pw pl <> None)
      by (intros N; apply (chain_none _ _ _ Hp Hl) in N as (_ & _ & N); apply Hst; [discriminate|auto]).
    destruct (chain_account w pw pl) as [[| | | |d|]|] eqn:E; try congruence; try discriminate.
    destruct d; try discriminate. destruct (negb (sp_is_stake_pool p)); [discriminate|].
    destruct (negb (sp_pool_mint p =? lm)); [discriminate|]. intros _. apply chain_data in E as (E & _). cbn. eauto.
Qed.

Lemma update_data_same m ls ld : let ld' := fst (update_lst_data dp D m ls ld) in
  kn_lst_mint dp (ld_calc ld') = kn_lst_mint dp (ld_calc ld) /\ kn_program_id dp (ld_calc ld') = kn_program_id dp (ld_calc ld) /\
  ld_token_program ld' = ld_token_program ld.
Proof.
  cbn. unfold update_lst_data. pose proof (kn_update_same m (ld_calc ld)) as (A & B).
  destruct (kn_update dp m (ld_calc ld)) as [c r]. cbn [fst] in *.
  destruct (pool_reserves_account D ls ld) as [ata|]; [|cbn; auto].
  destruct (m ata) as [[]|]; cbn; auto.
Qed.
Definition fresh_data (w : World) (pw : PWorld) (ld : LstData) : Prop :=
  calc_in_sync dp pw (ld_calc ld) /\
  (w_tok w (reserves_of D w (kn_lst_mint dp (ld_calc ld))) <> None ->
   ld_reserves ld = Some (balance w (reserves_of D w (kn_lst_mint dp (ld_calc ld))))).
Lemma reserves_account_is w ls ld : entry_ok w ls ld -> pool_reserves_account D ls ld = Some (reserves_of D w (ls_mint ls)).
Proof.
  intros (_ & T & _ & B). unfold pool_reserves_account, reserves_of. rewrite T, B. apply (proj1 HD).
Qed.
Lemma update_data_fresh w pw m ls ld : the_pool w <> None -> the_list w <> None -> entry_ok w ls ld ->
  (forall a, In a (lst_accounts_to_update dp D ls (Some ld)) -> m a = chain_account w pw a) ->
  (ld_calc ld <> KnWsol -> pdata pw (stake_pool_account dp (ld_calc ld)) <> PEmpty) ->
  snd (update_lst_data dp D m ls ld) = Ok tt -> fresh_data w pw (fst (update_lst_data dp D m ls ld)).
Proof.
  intros Hp Hl He Hm Hst Hok. pose proof (update_data_same m ls ld) as (Sm & _ & _). cbn in Sm.
  unfold fresh_data. rewrite Sm. destruct He as ((Em & Ec) & T & M & B).
  pose proof (reserves_account_is w ls ld (conj (conj Em Ec) (conj T (conj M B)))) as Hra.
  cbn [lst_accounts_to_update] in Hm. rewrite Hra in Hm.
  assert (Hmr : m (reserves_of D w (ls_mint ls)) = chain_account w pw (reserves_of D w (ls_mint ls)))
    by (apply Hm, in_app_iff; right; left; auto).
  assert (Hks : snd (kn_update dp m (ld_calc ld)) = Ok tt -> calc_in_sync dp pw (fst (kn_update dp m (ld_calc ld)))).
  { apply (kn_update_sync w); auto. intros a Ha. apply Hm, in_app_iff. auto. }
  unfold update_lst_data in *. rewrite Hra in *. destruct (kn_update dp m (ld_calc ld)) as [c r]. cbn [fst snd] in *. rewrite Em.
  rewrite Hmr in *. destruct (chain_account w pw (reserves_of D w (ls_mint ls))) as [[]|] eqn:E; cbn [fst snd ld_calc ld_reserves] in *;
    apply and_ok in Hok as (Hr & Hb); try discriminate; split; auto; intros Ht.
  - now rewrite (chain_token _ _ _ _ E).
  - apply chain_none in E as (E & _); auto. congruence.
Qed.

Definition data_after m (l : list LstState) (d : list (option LstData)) : list (option LstData) :=
  map (fun '(ls, x) => option_map (fun ld => fst (update_lst_data dp D m ls ld)) x) (combine l d).
Lemma update_data_from_spec m l d : length l = length d ->
  fst (update_data_from dp D m l d) = data_after m l d /\
  (snd (update_data_from dp D m l d) = Ok tt -> forall ls ld, In (ls, Some ld) (combine l d) -> snd (update_lst_data dp D m ls ld) = Ok tt).
Proof.
  revert l. induction d as [|x d IH]; intros [|ls l] HL; cbn [length] in HL; try discriminate.
  - split; [reflexivity|]. cbn. tauto.
  - injection HL as HL. specialize (IH l HL). destruct IH as (I1 & I2).
    destruct x as [ld|]; cbn [update_data_from tl].
    + destruct (update_lst_data dp D m ls ld) as [ld' r] eqn:Eu. destruct (update_data_from dp D m l d) as [d'' r''].
      cbn [fst snd] in *. split.
      * unfold data_after. cbn [combine map option_map]. rewrite Eu. cbn [fst]. f_equal. exact I1.
      * intros Hok. apply and_ok in Hok as (H1 & H2). intros ls0 ld0. cbn [combine In]. intros [[= <- <-]|Hin]; [rewrite Eu; exact H1|auto].
    + destruct (update_data_from dp D m l d) as [d'' r'']. cbn [fst snd] in *. split.
      * unfold data_after. cbn [combine map option_map]. f_equal. exact I1.
      * intros Hok ls0 ld0. cbn [combine In]. intros [[= ]|Hin]; auto.
Qed.
Lemma data_after_align w m l d : Forall2 (fun ls x => forall ld, x = Some ld -> entry_ok w ls ld) l d ->
  Forall2 (fun ls x => forall ld, x = Some ld -> entry_ok w ls ld) l (data_after m l d).
Proof.
  unfold data_after. induction 1 as [|ls x l d Hx H IH]; cbn [combine map]; constructor; auto.
  intros ld Hld. destruct x as [ld0|]; [|discriminate]. cbn [option_map] in Hld. injection Hld as <-.
  destruct (Hx ld0 eq_refl) as ((N1 & N2) & T & M & B). destruct (update_data_same m ls ld0) as (S1 & S2 & S3). cbn in S1, S2, S3.
  unfold entry_ok, named. rewrite S1, S2, S3. auto.
Qed.
Lemma data_after_mint m l d ld' : In (Some ld') (data_after m l d) -> exists ls ld, In (ls, Some ld) (combine l d) /\
  ld' = fst (update_lst_data dp D m ls ld).
Proof.
  unfold data_after. intros H. apply in_map_iff in H as ([ls x] & Hx & Hin). destruct x as [ld|]; [|discriminate].
  cbn in Hx. exists ls, ld. split; auto. congruence.
Qed.

Lemma step1 w pw SP m : aligned w pw SP -> aligned w pw (fst (update_lst_data_list dp D m SP)).
Proof.
  intros A. pose proof (al_data _ _ _ A) as Hd. destruct (update_data_from_spec m _ _ (Forall2_length Hd)) as (E & _).
  unfold update_lst_data_list. destruct (update_data_from dp D m (jp_list SP) (jp_data SP)) as [d r]. cbn [fst] in *. subst d.
  constructor; cbn [set_data jp_list jp_data jp_pricing jp_pool]; try (apply A).
  - apply data_after_align. exact Hd.
  - intros p ld Hp Hin. apply data_after_mint in Hin as (ls & ld0 & Hin & ->).
    rewrite (proj1 (update_data_same m ls ld0)). eapply (al_keys _ _ _ A); eauto. eapply in_combine_r. exact Hin.
Qed.

(** ** Updating the pricing program *)
Lemma kf_update_keys m p : map fst (kf_fees (fst (kf_update dp m p))) = map fst (kf_fees p).
Proof.
  assert (G : forall l, map fst (fst (kf_update_fees dp m l)) = map fst l).
  { induction l as [|[mt f] t IH]; [reflexivity|]. cbn [kf_update_fees].
    destruct (match f with Some (bump, _, _) => of_option BadSeeds (fd_create F mt bump) | None => Ok (fst (fd_find F mt)) end) as [a|]; [|reflexivity].
    destruct (m a) as [[]|]; try reflexivity; try (destruct d; try reflexivity);
      destruct (kf_update_fees dp m t) as [t' r]; cbn [map fst] in *; now rewrite IH. }
  unfold kf_update. destruct (m (ff_state F)) as [[]|]; try reflexivity; try (destruct d; try reflexivity);
    specialize (G (kf_fees p)); destruct (kf_update_fees dp m (kf_fees p)) as [fs r]; exact G.
Qed.
Lemma kf_fees_after w pw m p : flat_reachable R F pw -> truthful w pw m -> fees_ok p -> fees_ok (fst (kf_update dp m p)).
Proof.
  intros Hfl Ht Hok.
  assert (G : forall l : list (key * option FeeAcc), (forall mt b i o, In (mt, Some (b, i, o)) l -> fd_create F mt b = Some (fst (fd_find F mt))) ->
    forall mt b i o, In (mt, Some (b, i, o)) (fst (kf_update_fees dp m l)) -> fd_create F mt b = Some (fst (fd_find F mt))).
  { induction l as [|[mt f] t IH]; intros Hl; [cbn; tauto|]. cbn [kf_update_fees].
    assert (IH' := IH (fun mt b i o H => Hl mt b i o (or_intror H))). clear IH.
    assert (Ha : match f with Some (bump, _, _) => of_option BadSeeds (fd_create F mt bump) | None => Ok (fst (fd_find F mt)) end
      = Ok (fst (fd_find F mt))).
    { destruct f as [[[b i] o]|]; [|reflexivity]. rewrite (Hl mt b i o (or_introl eq_refl)). reflexivity. }
    rewrite Ha. destruct (m (fst (fd_find F mt))) as [[]|] eqn:Em; try exact Hl.
    - destruct d; try exact Hl. destruct (kf_update_fees dp m t) as [t' r]. cbn [fst In] in *.
      intros mt' b i o [[= <- <- <- <-]|Hin]; [|eauto].
      apply Ht, chain_data in Em as (Em & _).
      eapply (proj1 (chain_fee_bump R dp pw HF Hfl mt _ _ _ ltac:(unfold chain_fee; rewrite Em; reflexivity))).
    - destruct (kf_update_fees dp m t) as [t' r]. cbn [fst In] in *. intros mt' b i o [H|Hin]; [|eauto].
      apply (Hl mt' b i o). left. congruence. }
  specialize (G (kf_fees p) Hok).
  unfold kf_update. destruct (m (ff_state F)) as [[]|]; try exact Hok; try (destruct d; try exact Hok);
    destruct (kf_update_fees dp m (kf_fees p)) as [fs r]; exact G.
Qed.
Lemma kf_state_after w pw m p : truthful w pw m -> (kf_state p <> None -> flat_manager F pw <> None) ->
  kf_state (fst (kf_update dp m p)) <> None -> flat_manager F pw <> None.
Proof.
  intros Ht Hok. unfold kf_update. destruct (m (ff_state F)) as [[]|] eqn:Em; try exact Hok.
  - destruct d; try exact Hok. intros _. apply Ht, chain_data in Em as (Em & _). unfold flat_manager. rewrite Em. discriminate.
  - destruct (kf_update_fees dp m (kf_fees p)) as [fs r]. exact Hok.
Qed.
Lemma kf_update_sync w pw m p : the_pool w <> None -> the_list w <> None -> flat_reachable R F pw -> fees_ok p ->
  (kf_state p <> None -> flat_manager F pw <> None) ->
  (forall a, In a (kf_accounts_to_update dp p) -> m a = chain_account w pw a) ->
  (forall mt f, In (mt, Some f) (kf_fees p) -> chain_fee F pw mt <> None) ->
  snd (kf_update dp m p) = Ok tt -> pricing_in_sync dp pw (fst (kf_update dp m p)) (map fst (kf_fees p)).
Proof.
  intros Hp Hl Hfl Hok Hst Hm Hth.
  assert (Hms : m (ff_state F) = chain_account w pw (ff_state F)) by (apply Hm; left; auto).
  assert (G : forall l : list (key * option FeeAcc), (forall x, In x l -> In x (kf_fees p)) -> snd (kf_update_fees dp m l) = Ok tt ->
    forall mt, In mt (map fst l) -> assoc mt (fst (kf_update_fees dp m l)) = Some (chain_fee F pw mt)).
  { induction l as [|[mt f] t IH]; intros Hsub; [cbn; tauto|]. cbn [kf_update_fees].
    assert (IH' := IH (fun x H => Hsub x (or_intror H))). clear IH.
    pose proof (Hsub _ (or_introl eq_refl)) as Hin.
    assert (Ha : match f with Some (bump, _, _) => of_option BadSeeds (fd_create F mt bump) | None => Ok (fst (fd_find F mt)) end
      = Ok (fst (fd_find F mt))).
    { destruct f as [[[b i] o]|]; [|reflexivity]. rewrite (Hok _ _ _ _ Hin). reflexivity. }
    rewrite Ha.
    assert (Hmf : m (fst (fd_find F mt)) = chain_account w pw (fst (fd_find F mt))).
    { apply Hm. cbn [kf_accounts_to_update]. right. apply in_map_iff. exists (mt, f). split; [|exact Hin].
      unfold kf_fee_address. destruct f as [[[b i] o]|]; [|reflexivity]. rewrite (Hok _ _ _ _ Hin). reflexivity. }
    rewrite Hmf. destruct (chain_account w pw (fst (fd_find F mt))) as [[]|] eqn:Em; try discriminate.
    - destruct d; try discriminate. apply chain_data in Em as (Em & _).
      destruct (kf_update_fees dp m t) as [t' r]. cbn [fst snd map In assoc] in *. intros Hr mt' Hmt'.
      destruct (Z.eqb_spec mt mt') as [<-|N]; [unfold chain_fee; rewrite Em; reflexivity|].
      apply IH'; auto. destruct Hmt'; [congruence|auto].
    - apply chain_none in Em as (_ & _ & Em); auto.
      destruct (kf_update_fees dp m t) as [t' r]. cbn [fst snd map In assoc] in *. intros Hr mt' Hmt'.
      destruct (Z.eqb_spec mt mt') as [<-|N].
      + destruct f as [f|]; [exfalso; apply (Hth _ _ Hin); unfold chain_fee; rewrite Em; reflexivity|].
        unfold chain_fee. rewrite Em. reflexivity.
      + apply IH'; auto. destruct Hmt'; [congruence|auto]. }
  specialize (G (kf_fees p) (fun x H => H)). unfold kf_update. rewrite Hms.
  destruct (chain_account w pw (ff_state F)) as [[]|] eqn:Em; try discriminate.
  - destruct d; try discriminate. apply chain_data in Em as (Em & _). destruct (kf_update_fees dp m (kf_fees p)) as [fs r].
    cbn [fst snd] in *. intros Hr. split; [cbn; unfold chain_state; rewrite Em; reflexivity|]. cbn [kf_fees]. auto.
  - apply chain_none in Em as (_ & _ & Em); auto. destruct (kf_update_fees dp m (kf_fees p)) as [fs r].
    cbn [fst snd] in *. intros Hr. split; [|cbn [kf_fees]; auto]. cbn. unfold chain_state. rewrite Em.
    destruct (kf_state p) as [x|]; [|auto]. exfalso. apply Hst; [discriminate|]. unfold flat_manager. rewrite Em. reflexivity.
Qed.

Lemma step2 w pw SP m : aligned w pw SP -> truthful w pw m -> aligned w pw (fst (update_pricing_prog dp m SP)).
Proof.
  intros A Ht. unfold update_pricing_prog. destruct (jp_pricing SP) as [p|] eqn:Hp; [|exact A].
  pose proof (kf_update_keys m p) as K. pose proof (kf_fees_after w pw m p (al_flat _ _ _ A) Ht (al_fees _ _ _ A p Hp)) as K2.
  pose proof (kf_state_after w pw m p Ht (al_state _ _ _ A p Hp)) as K3.
  destruct (kf_update dp m p) as [p' r]. cbn [fst] in *.
  constructor; cbn [set_pricing jp_list jp_data jp_pricing jp_pool]; try (apply A).
  - intros q ld [= <-] Hin. rewrite K. eapply (al_keys _ _ _ A); eauto.
  - intros q [= <-]. auto.
  - intros q [= <-]. auto.
  - pose proof (al_pool _ _ _ A) as Hq. rewrite Hp in Hq. destruct (jp_pool SP); [|discriminate].
    destruct Hq as (Hq & H2). split; [|auto]. rewrite <- Hq. split; congruence.
Qed.

(** ** Updating the list *)
Lemma find_data_some mint calc d ld : find_data dp mint calc d = Some ld ->
  In (Some ld) d /\ kn_lst_mint dp (ld_calc ld) = mint /\ kn_program_id dp (ld_calc ld) = calc.
Proof.
  induction d as [|[x|] t IH]; cbn [find_data]; [discriminate| |].
  - destruct ((kn_lst_mint dp (ld_calc x) =? mint) && (kn_program_id dp (ld_calc x) =? calc)) eqn:E.
    + intros [= <-]. apply andb_true_iff in E as (E1 & E2). apply Z.eqb_eq in E1, E2. cbn. auto.
    + intros H. destruct (IH H) as (? & ? & ?). cbn. auto.
  - intros H. destruct (IH H) as (? & ? & ?). cbn. auto.
Qed.
Lemma find_data_none mint calc d ld : In (Some ld) d -> kn_lst_mint dp (ld_calc ld) = mint -> kn_program_id dp (ld_calc ld) = calc ->
  find_data dp mint calc d <> None.
Proof.
  intros Hin <- <-. induction d as [|[x|] t IH]; cbn [find_data]; [destruct Hin| |].
  - destruct ((kn_lst_mint dp (ld_calc x) =? kn_lst_mint dp (ld_calc ld)) && (kn_program_id dp (ld_calc x) =? kn_program_id dp (ld_calc ld))) eqn:E;
      [discriminate|]. destruct Hin as [[= ->]|Hin]; [|auto]. rewrite !Z.eqb_refl in E. discriminate.
  - destruct Hin as [[= ]|Hin]; auto.
Qed.
Lemma rebuilt_named all old x new ld : rebuilt_entry dp all old x new = Some ld ->
  (forall ld, x = Some ld -> named old ld /\ In (Some ld) all) ->
  In (Some ld) all /\ named new ld.
Proof.
  unfold rebuilt_entry, named. intros H Hx. destruct (Z.eqb_spec (ls_mint old) (ls_mint new)) as [E|N]; cbn [negb] in H.
  - destruct x as [ld0|]; [|discriminate]. destruct (Z.eqb_spec (kn_program_id dp (ld_calc ld0)) (sol_value_calculator new)); [|discriminate].
    injection H as <-. destruct (Hx _ eq_refl) as ((? & ?) & ?). repeat split; auto. congruence.
  - apply find_data_some in H. tauto.
Qed.
Lemma rebuild_none all news : Forall2 (fun (ls : LstState) x => x = None) news (rebuild dp all [] [] news).
Proof. induction news; cbn [rebuild]; constructor; auto. Qed.
Lemma rebuild_named all olds xs news :
  Forall2 (fun ls x => forall ld, x = Some ld -> named ls ld /\ In (Some ld) all) olds xs ->
  Forall2 (fun ls x => forall ld, x = Some ld -> named ls ld /\ In (Some ld) all) news (rebuild dp all olds xs news).
Proof.
  revert olds xs. induction news as [|n news IH]; intros olds xs H; cbn [rebuild]; [constructor|].
  destruct H as [|o x olds xs Hx H].
  - constructor; [discriminate|]. eapply Forall2_impl; [|apply rebuild_none]. intros ls y -> ld. discriminate.
  - constructor; [|auto]. intros ld Hld. destruct (rebuilt_named _ _ _ _ _ Hld Hx). auto.
Qed.
Lemma Forall2_and {A B} (P Q : A -> B -> Prop) l d : Forall2 P l d -> (forall a b, In b d -> P a b -> Q a b) -> Forall2 Q l d.
Proof. induction 1; intros HQ; constructor; auto. - apply HQ; [left; auto|auto]. - apply IHForall2. intros a b Hb. apply HQ. right; auto. Qed.

(** The list after an update, whichever way it was reached: each entry's data is old data of that LST. *)
Definition new_list_data (SP : SPool) (new : list LstState) : list (option LstData) :=
  if (Nat.eqb (length (jp_list SP)) (length new)) && forallb (fun '(o, n) => same_entry o n) (combine (jp_list SP) new)
  then jp_data SP else rebuild dp (jp_data SP) (jp_list SP) (jp_data SP) new.
Lemma same_entries olds news xs (P : option LstData -> Prop) : length olds = length news ->
  forallb (fun '(o, n) => same_entry o n) (combine olds news) = true ->
  Forall2 (fun ls x => forall ld, x = Some ld -> named ls ld /\ P x) olds xs ->
  Forall2 (fun ls x => forall ld, x = Some ld -> named ls ld /\ P x) news xs.
Proof.
  intros HL Hs H. revert news HL Hs. induction H as [|o x olds xs Hx H IH]; intros [|n news] HL Hs; try discriminate; constructor.
  - cbn in Hs. apply andb_true_iff in Hs as (Hs & _). unfold same_entry in Hs. apply andb_true_iff in Hs as (E1 & E2).
    apply Z.eqb_eq in E1, E2. intros ld Hld. destruct (Hx ld Hld) as ((? & ?) & ?). unfold named. rewrite <- E1, <- E2. auto.
  - cbn in Hs. apply andb_true_iff in Hs as (_ & Hs). injection HL as HL. apply IH; auto.
Qed.
Lemma new_data_named w pw SP new : aligned w pw SP ->
  Forall2 (fun ls x => forall ld, x = Some ld -> named ls ld /\ In x (jp_data SP)) new (new_list_data SP new).
Proof.
  intros A. assert (H : Forall2 (fun ls x => forall ld, x = Some ld -> named ls ld /\ In x (jp_data SP)) (jp_list SP) (jp_data SP)).
  { eapply Forall2_and; [apply (al_data _ _ _ A)|]. cbn. intros ls x Hin Hx ld Hld. split; [apply (Hx ld Hld)|auto]. }
  unfold new_list_data. destruct (_ && _) eqn:E.
  - apply andb_true_iff in E as (E1 & E2). apply Nat.eqb_eq in E1. eapply same_entries with (P := fun x => In x (jp_data SP)); eauto.
  - assert (H' : Forall2 (fun ls x => forall ld, x = Some ld -> named ls ld /\ In (Some ld) (jp_data SP)) (jp_list SP) (jp_data SP)).
    { eapply Forall2_impl; [|exact H]. cbn. intros ls x Hx ld ->. auto. }
    eapply Forall2_impl; [|apply rebuild_named; exact H']. cbn. intros ls x Hx ld ->. auto.
Qed.
Lemma update_list_is m SP new : m LST_STATE_LIST_ID = Some (FList new) ->
  update_lst_state_list dp m SP = (set_list (set_data SP (new_list_data SP new)) new, Ok tt).
Proof.
  intros E. unfold update_lst_state_list, new_list_data. rewrite E. destruct (_ && _); reflexivity.
Qed.
Lemma step3 w pw SP m : aligned w pw SP -> truthful w pw m -> aligned w pw (fst (update_lst_state_list dp m SP)).
Proof.
  intros A Ht. destruct (m LST_STATE_LIST_ID) as [a|] eqn:E; [|unfold update_lst_state_list; rewrite E; exact A].
  destruct a as [|new| | | |]; try (unfold update_lst_state_list; rewrite E; exact A).
  rewrite (update_list_is _ _ _ E). cbn [fst]. apply Ht, chain_list in E.
  destruct (list_some w (al_reach _ _ _ A)) as (l' & Hl' & Hnd & Ha). assert (l' = new) by congruence. subst l'.
  pose proof (new_data_named w pw SP new A) as Hn.
  constructor; cbn [set_list set_data jp_list jp_data jp_pricing jp_pool]; try (apply A); auto.
  - revert Ha Hn. generalize (new_list_data SP new). intros d Ha Hn. clear Hnd Hl' E. induction Hn as [|ls x l d Hx Hn IH]; constructor.
    + intros ld ->. destruct (Hx ld eq_refl) as ((N1 & N2) & Hin). destruct (data_in_list _ _ _ _ A Hin) as (n & ls0 & _ & _ & ((M1 & M2) & T & M & B)).
      apply Forall_inv in Ha. destruct Ha as (_ & Hm & r & f & F1 & _). split; [split; auto|].
      assert (Em : ls_mint ls0 = ls_mint ls) by congruence. rewrite <- Em. rewrite <- Em in F1. rewrite F1. auto.
    + apply Forall_inv_tail in Ha. auto.
  - intros p ld Hp Hin. apply In_nth_error in Hin as (n & Hin).
    assert (Hls : exists ls, nth_error new n = Some ls).
    { destruct (nth_error new n) as [ls|] eqn:E1; [eauto|]. apply nth_error_None in E1. pose proof (Forall2_length Hn) as L.
      assert (HS : nth_error (new_list_data SP new) n <> None) by congruence. apply nth_error_Some in HS. lia. }
    destruct Hls as (ls & Hls). destruct (Forall2_nth _ _ _ _ _ _ Hn Hls Hin ld eq_refl) as (_ & Hin'). eapply (al_keys _ _ _ A); eauto.
Qed.

(** ** Updating the pool *)
Lemma step4 w pw SP m : aligned w pw SP -> truthful w pw m -> aligned w pw (fst (update_pool_state dp m SP)).
Proof.
  intros A Ht. unfold update_pool_state. destruct (m POOL_STATE_ID) as [a|] eqn:E; [|exact A].
  destruct a as [new| | | | |]; try exact A. apply Ht, chain_pool in E.
  pose proof (al_pool _ _ _ A) as Hq.
  set (reinit := match jp_pricing SP with None => true | Some _ => _ end).
  destruct reinit eqn:Er.
  - unfold try_pricing_prog. destruct (Z.eqb_spec (pricing_program new) (ff_id F)) as [Ep|Np].
    + set (p0 := kf_new (map ls_mint (jp_list SP))).
      assert (Hk0 : fees_ok p0).
      { intros mt b i o Hin. unfold p0 in Hin. cbn [kf_new kf_fees] in Hin. apply in_map_iff in Hin as (x & Hx & _). discriminate. }
      pose proof (kf_update_keys m p0) as K. pose proof (kf_fees_after w pw m p0 (al_flat _ _ _ A) Ht Hk0) as K2.
      assert (Hs0 : kf_state p0 <> None -> flat_manager F pw <> None) by (cbn; congruence).
      pose proof (kf_state_after w pw m p0 Ht Hs0) as K3.
      destruct (kf_update dp m p0) as [p' r]. cbn [fst] in *.
      constructor; cbn [set_pool set_pricing jp_list jp_data jp_pricing jp_pool]; try (apply A).
      * intros p ld [= <-] Hin. destruct (data_in_list _ _ _ _ A Hin) as (n & ls & H1 & _ & ((Em & _) & _)).
        rewrite K. unfold p0. cbn [kf_new kf_fees]. rewrite map_map. cbn [fst]. rewrite map_id, Em. apply in_map. eapply nth_error_In. exact H1.
      * intros q [= <-]. auto.
      * intros q [= <-]. auto.
      * split; [split; congruence|]. intros ps Hps. congruence.
    + cbn [fst]. constructor; cbn [set_pool set_pricing jp_list jp_data jp_pricing jp_pool]; try (apply A); try discriminate.
      split; [split; congruence|]. intros ps Hps. congruence.
  - cbn [fst]. constructor; cbn [set_pool jp_list jp_data jp_pricing jp_pool]; try (apply A).
    unfold reinit in Er. destruct (jp_pricing SP) as [p|] eqn:Hp; [|discriminate].
    destruct (jp_pool SP) as [old|]; [|congruence]. apply negb_false_iff, Z.eqb_eq in Er. destruct Hq as (Hq & _). split.
    + rewrite <- Er. exact Hq.
    + intros ps Hps. congruence.
Qed.
Lemma step5 w pw SP m : aligned w pw SP -> aligned w pw (fst (update_lp_token_supply m SP)).
Proof.
  intros A. unfold update_lp_token_supply. destruct (jp_pool SP) as [ps|] eqn:Hp; [|exact A].
  destruct (m (lp_token_mint ps)) as [[]|]; try exact A. cbn [fst].
  constructor; cbn [set_lp_supply jp_list jp_data jp_pricing jp_pool]; try (apply A).
Qed.

Lemma aligned_update w pw SP m : aligned w pw SP -> truthful w pw m -> aligned w pw (fst (update_full dp D m SP)).
Proof.
  intros A Ht. unfold update_full.
  pose proof (step1 w pw SP m A) as A1. destruct (update_lst_data_list dp D m SP) as [S1 r1]. cbn [fst] in A1.
  pose proof (step2 w pw S1 m A1 Ht) as A2. destruct (update_pricing_prog dp m S1) as [S2 r2]. cbn [fst] in A2.
  pose proof (step3 w pw S2 m A2 Ht) as A3. destruct (update_lst_state_list dp m S2) as [S3 r3]. cbn [fst] in A3.
  pose proof (step4 w pw S3 m A3 Ht) as A4. destruct (update_pool_state dp m S3) as [S4 r4]. cbn [fst] in A4.
  pose proof (step5 w pw S4 m A4) as A5. destruct (update_lp_token_supply m S4) as [S5 r5]. cbn [fst] in *. exact A5.
Qed.
Lemma run_aligned w pw SP : client_run R dp D lsts w pw SP -> aligned w pw SP.
Proof.
  induction 1.
  - now apply aligned_list.
  - eapply aligned_init; eauto.
  - now apply aligned_update.
  - eapply aligned_chain; eauto.
  - eapply aligned_periph; eauto.
  - destruct IHclient_run. constructor; auto.
Qed.

(** ** A full refresh *)
Lemma in_combine_nth {A B} (l : list A) (d : list B) a b : In (a, b) (combine l d) -> exists n, nth_error l n = Some a /\ nth_error d n = Some b.
Proof.
  revert d. induction l as [|x t IH]; intros [|y d]; cbn; try tauto. intros [[= <- <-]|H]; [exists O; auto|].
  destruct (IH _ H) as (n & ? & ?). exists (S n). auto.
Qed.
Lemma refreshed w pw SP m SP' : aligned w pw SP -> fetched dp D w pw SP m -> update_full dp D m SP = (SP', Ok tt) ->
  still_there dp pw SP -> pricing_known SP w -> jp_epoch SP = pw_epoch pw -> in_sync dp D SP' w pw.
Proof.
  intros A (Ht & Hf) Hu (Hs1 & Hs2) (ps0 & ps & Hp0 & Hps & Eps) Hep.
  pose proof (aligned_update w pw SP m A Ht) as A'. rewrite Hu in A'. cbn [fst] in A'.
  destruct (list_some w (al_reach _ _ _ A)) as (l & Hl & Hnd & Ha).
  assert (Ip : the_pool w <> None) by congruence. assert (Il : the_list w <> None) by congruence.
  assert (Hfl : m LST_STATE_LIST_ID = Some (FList l)).
  { rewrite Hf by (unfold get_accounts_to_update; left; auto). unfold chain_account. rewrite Z.eqb_refl.
    change (LST_STATE_LIST_ID =? POOL_STATE_ID) with false. cbn [option_map]. rewrite Hl. reflexivity. }
  assert (Hfp : m POOL_STATE_ID = Some (FPool ps)).
  { rewrite Hf by (unfold get_accounts_to_update; right; left; auto). unfold chain_account. rewrite Z.eqb_refl. rewrite Hps. reflexivity. }
  pose proof (al_pool _ _ _ A) as Hal. rewrite Hp0 in Hal. destruct Hal as (Hpf & Hlp). specialize (Hlp _ Hps).
  assert (Hfs : m (lp_token_mint ps) = chain_account w pw (lp_token_mint ps)).
  { apply Hf. unfold get_accounts_to_update. rewrite Hp0, Hlp. rewrite !in_app_iff. right. right. right. left. auto. }
  unfold update_full in Hu.
  (* data *)
  pose proof (al_data _ _ _ A) as Hd. destruct (update_data_from_spec m _ _ (Forall2_length Hd)) as (Ed & Eok).
  pose proof (step1 w pw SP m A) as A1. unfold update_lst_data_list in A1.
  unfold update_lst_data_list in Hu. destruct (update_data_from dp D m (jp_list SP) (jp_data SP)) as [d1 r1]. cbn [fst snd] in Ed, Eok, A1.
  set (S1 := set_data SP d1) in Hu.
  destruct (update_pricing_prog dp m S1) as [S2 r2] eqn:E2.
  destruct (update_lst_state_list dp m S2) as [S3 r3] eqn:E3.
  destruct (update_pool_state dp m S3) as [S4 r4] eqn:E4.
  destruct (update_lp_token_supply m S4) as [S5 r5] eqn:E5.
  assert (HS : SP' = S5) by congruence. subst SP'.
  assert (Hr : and_res (and_res (and_res (and_res r1 r2) r3) r4) r5 = Ok tt) by congruence. clear Hu.
  apply and_ok in Hr as (Hr & R5). apply and_ok in Hr as (Hr & R4). apply and_ok in Hr as (Hr & R3). apply and_ok in Hr as (R1 & R2).
  specialize (Eok R1).
  assert (Hfresh : forall ld', In (Some ld') d1 -> fresh_data w pw ld').
  { intros ld' Hin. rewrite Ed in Hin. apply data_after_mint in Hin as (ls & ld & Hin & ->).
    pose proof (in_combine_nth _ _ _ _ Hin) as (n & N1 & N2). pose proof (Forall2_nth _ _ _ _ _ _ Hd N1 N2 ld eq_refl) as He.
    apply update_data_fresh; auto.
    - intros a Ha'. apply Hf. unfold get_accounts_to_update. rewrite !in_app_iff. right. right. left. apply in_flat_map.
      exists (ls, Some ld). auto.
    - apply Hs1. eapply in_combine_r. exact Hin. }
  (* pricing *)
  assert (H2 : jp_data S2 = d1 /\ jp_list S2 = jp_list SP /\ jp_pool S2 = jp_pool SP /\ jp_epoch S2 = jp_epoch SP /\
    match jp_pricing SP with None => jp_pricing S2 = None | Some p => exists p', jp_pricing S2 = Some p' /\ pricing_in_sync dp pw p' (map fst (kf_fees p')) end).
  { unfold update_pricing_prog in E2. change (jp_pricing S1) with (jp_pricing SP) in E2. destruct (jp_pricing SP) as [p|] eqn:Hp.
    - destruct (kf_update dp m p) as [p' r] eqn:Ek. injection E2 as <- <-. cbn [set_pricing jp_data jp_list jp_pool jp_epoch jp_pricing].
      repeat split; auto. exists p'. split; [auto|].
      pose proof (kf_update_keys m p) as K. rewrite Ek in K. cbn [fst] in K. rewrite K.
      pose proof (kf_update_sync w pw m p Ip Il (al_flat _ _ _ A) (al_fees _ _ _ A p Hp) (al_state _ _ _ A p Hp)) as G.
      rewrite Ek in G. cbn [fst snd] in G. apply G; auto.
      + intros a Hin. apply Hf. unfold get_accounts_to_update. rewrite Hp, !in_app_iff. right. left. exact Hin.
      + intros mt f. apply (Hs2 p mt f). auto.
    - injection E2 as <- <-. unfold S1. cbn. repeat split; auto. }
  destruct H2 as (D2 & L2 & P2 & Ep2 & Pr2).
  rewrite (update_list_is _ _ _ Hfl) in E3. injection E3 as <- _.
  assert (H4 : S4 = set_pool (set_list (set_data S2 (new_list_data S2 l)) l) (Some ps)).
  { unfold update_pool_state in E4. rewrite Hfp in E4. cbn [set_list set_data jp_pricing jp_pool jp_list] in E4.
    rewrite P2, Hp0 in E4. destruct (jp_pricing SP) as [p|] eqn:Hp.
    - destruct Pr2 as (p' & Hp' & _). rewrite Hp' in E4. rewrite Eps, Z.eqb_refl in E4. cbn [negb] in E4. congruence.
    - rewrite Pr2 in E4. unfold try_pricing_prog in E4. destruct (Z.eqb_spec (pricing_program ps) (ff_id F)) as [Ex|Nx].
      + exfalso. apply (proj2 Hpf); congruence.
      + cbn in E4. injection E4 as <- _. unfold set_pool, set_pricing, set_list, set_data. cbn. now rewrite Pr2. }
  assert (H5 : jp_lp_supply S5 = Some (supply w (lp_token_mint ps)) /\ S5 = set_lp_supply S4 (Some (supply w (lp_token_mint ps)))).
  { unfold update_lp_token_supply in E5. rewrite H4 in E5. cbn [set_pool jp_pool] in E5. rewrite Hfs in E5.
    destruct (chain_account w pw (lp_token_mint ps)) as [[]|] eqn:Ec; try congruence.
    - injection E5 as <- _. apply chain_mint in Ec. rewrite Ec. rewrite H4. split; reflexivity.
    - apply chain_none in Ec as (_ & Ec & _); auto. destruct (reachable_ata D HD w (al_reach _ _ _ A)) as (_ & _ & Hx).
      destruct (Hx _ Hps) as (_ & i & Hi & _). congruence. }
  destruct H5 as (_ & H5). subst S4 S5.
  pose proof (al_data _ _ _ A') as Hd'. pose proof (al_keys _ _ _ A') as Hk'.
  cbn [set_lp_supply set_pool set_list set_data jp_list jp_data jp_pricing] in Hd', Hk'.
  constructor; cbn [set_lp_supply set_pool set_list set_data jp_list jp_data jp_pricing jp_pool jp_lp_supply jp_epoch].
  - auto.
  - auto.
  - intros q Hq. congruence.
  - congruence.
  - assert (A2 : aligned w pw S2) by (pose proof (step2 w pw S1 m) as G; rewrite E2 in G; apply G; auto).
    pose proof (new_data_named w pw S2 l A2) as Hnn. rewrite D2 in Hnn. rewrite Forall_forall in Ha.
    assert (Hsub : forall ls, In ls l -> lst_accounts D w ls) by auto. clear Hl Hnd Hfl Hk' A'.
    revert Hd' Hnn Hsub. generalize (new_list_data S2 l). intros d. revert d. clear - Hfresh HD.
    induction l as [|ls l IH]; intros d Hd' Hnn Hsub; inversion Hd' as [|? x ? d' Hx Hd'' ]; subst; inversion Hnn as [|? ? ? ? Hy Hnn']; subst; constructor.
    + intros ld ->. destruct (Hx ld eq_refl) as ((N1 & N2) & T & M & B). destruct (Hy ld eq_refl) as (_ & Hin).
      destruct (Hfresh ld Hin) as (Hc & Hres). rewrite N1 in Hres. constructor; auto. apply Hres.
      destruct (Hsub ls (or_introl eq_refl)) as (_ & _ & r & f & F1 & _ & Hr & _). unfold reserves_of. rewrite F1. exact Hr.
    + apply IH; auto. intros. apply Hsub. right; auto.
  - intros p Hp. destruct (jp_pricing SP) as [p0|] eqn:Hpp; [|congruence]. destruct Pr2 as (p' & Hp' & (Q1 & Q2)).
    assert (p' = p) by congruence. subst p'. split.
    + split; [auto|]. intros mt Hmt. apply Q2. unfold ready_mints in Hmt. cbn [set_lp_supply set_pool set_list set_data jp_list jp_data] in Hmt.
      apply in_flat_map in Hmt as ((ls & x) & Hin & Hmt). destruct x as [ld|]; [|destruct Hmt]. destruct Hmt as [<-|[]].
      apply in_combine_nth in Hin as (n & N1 & N2). destruct (Forall2_nth _ _ _ _ _ _ Hd' N1 N2 ld eq_refl) as ((N & _) & _).
      rewrite <- N. apply (Hk' p ld); auto. eapply nth_error_In; eauto.
    + intros q Hq. assert (q = ps) by congruence. subst q. rewrite <- Eps. apply Hpf. discriminate.
Qed.
End Client.
