(** Proofs about the off-chain clients. *)
From Coq Require Import ZArith List Bool Lia.
From Verif Require Import Base Ratio Calc State Controller Inversion Spec Periph PeriphSpec PeriphProofs PropCalc PropFlat
  Deploy Client Known Jup JupSpec.
Import ListNotations.
Open Scope Z_scope.

(* ------------------------------------------------------------------ *)
(** * Calculators *)

Section Calc.
Context (R : RatioLib) (dp : Deploy) (pw : PWorld) (other : Env).
Hypothesis HR : ratio_lib_ok R.
Hypothesis HT : pools_typed pw.
Hypothesis HD : deploy_ok dp.
Notation E := (deployed_env R dp pw other).

(** What the on-chain program sees when given the client's accounts. *)
Lemma calc_cfg_known k : calc_cfg dp (kn_program_id dp k) = calc_program dp k.
Proof.
  destruct HD as (_ & _ & _ & _ & _ & ND).
  inversion ND as [|? ? N1 ND1]; subst. inversion ND1 as [|? ? N2 ND2]; subst. inversion ND2 as [|? ? N3 ND3]; subst.
  inversion ND3 as [|? ? N4 ND4]; subst. inversion ND4 as [|? ? N5 ND5]; subst. cbn [In] in *.
  unfold calc_cfg. destruct k as [c|c|s m p c|]; [| |destruct s|]; cbn [kn_program_id calc_program spl_cfg];
    repeat match goal with |- context [?a =? ?b] => destruct (Z.eqb_spec a b); subst end; auto; exfalso;
    intuition congruence.
Qed.
Lemma wsol_known k : (kn_program_id dp k =? dp_wsol dp) = match k with KnWsol => true | _ => false end.
Proof.
  destruct HD as (_ & _ & _ & _ & _ & ND).
  inversion ND as [|? ? N1 ND1]; subst. inversion ND1 as [|? ? N2 ND2]; subst. inversion ND2 as [|? ? N3 ND3]; subst.
  inversion ND3 as [|? ? N4 ND4]; subst. inversion ND4 as [|? ? N5 ND5]; subst. cbn [In] in *.
  destruct k as [c|c|s m p c|]; [| |destruct s|]; cbn [kn_program_id spl_cfg]; try apply Z.eqb_refl;
    apply Z.eqb_neq; intuition congruence.
Qed.

Definition client_accs (k : KnownCalc) : list Meta := cpi_ro (kn_lst_mint dp k) :: skipn 1 (kn_ix_accounts dp k).

(** A quotable pool gives the off-chain calculator its data. *)
Lemma quotable_known k cfg c : calc_program dp k = Some cfg -> calc_in_sync dp pw k ->
  quotable cfg pw (client_accs k) c -> kn_calc (pw_epoch pw) k = Ok c.
Proof.
  intros Hc Hs Hq. pose proof (q_pool _ _ _ _ Hq) as Hp. pose proof (q_current _ _ _ _ Hq) as Hcur.
  destruct HD as (K1 & K2 & K3 & (lm & lp & K4) & (mm & mp & K5) & _).
  destruct k as [o|o|s m p o|]; cbn [calc_program] in Hc; try discriminate; injection Hc as <-;
    destruct Hs as (x & -> & Hx); cbn [stake_pool_account] in Hx; unfold pool_of in Hp.
  - rewrite K4 in Hp. unfold key_at in Hp; cbn [client_accs kn_ix_accounts common_metas skipn nth_error mk cpi_ro ro] in Hp.
    rewrite Hx in Hp. injection Hp as <-. cbn [kn_calc of_option bind]. cbn [pool_current] in Hcur.
    rewrite Hcur, Z.eqb_refl. reflexivity.
  - rewrite K5 in Hp. unfold key_at in Hp; cbn [client_accs kn_ix_accounts common_metas skipn nth_error mk cpi_ro ro] in Hp.
    rewrite Hx in Hp. injection Hp as <-. cbn [kn_calc of_option bind]. cbn [pool_current] in Hcur.
    destruct Hcur as (-> & ->). reflexivity.
  - unfold key_at in Hp; cbn [client_accs kn_ix_accounts common_metas skipn nth_error mk cpi_ro ro] in Hp.
    rewrite Hx in Hp. destruct s; cbn [spl_cfg] in Hp; rewrite ?K1, ?K2, ?K3 in Hp; injection Hp as <-;
      cbn [kn_calc of_option bind]; cbn [pool_current] in Hcur; rewrite Hcur, Z.eqb_refl; reflexivity.
Qed.
(** And the other way when the on-chain calculator is in working order. *)
Lemma known_quotable k cfg c : calc_program dp k = Some cfg -> calc_in_sync dp pw k -> calc_ready dp pw k ->
  kn_calc (pw_epoch pw) k = Ok c -> quotable cfg pw (client_accs k) c.
Proof.
  intros Hc Hs Hr Hk. unfold calc_ready in Hr. rewrite Hc in Hr. destruct Hr as (Hg & Hpd & Hsl & Hmint).
  destruct HD as (K1 & K2 & K3 & (lm & lp & K4) & (mm & mp & K5) & _).
  destruct k as [o|o|s m p o|]; cbn [calc_program] in Hc; try discriminate; injection Hc as <-;
    destruct Hs as (x & -> & Hx); cbn [kn_calc of_option bind] in Hk; inv_ok; cbn [stake_pool_account] in Hx, Hg, Hmint.
  - split; cbv [key_at pool_of client_accs kn_ix_accounts common_metas skipn nth_error mk cpi_ro ro length]; auto.
    + rewrite K4, Hx. reflexivity.
    + unfold lst_of. cbn [kn_lst_mint]. unfold cfg_mint. rewrite K4. reflexivity.
  - split; cbv [key_at pool_of client_accs kn_ix_accounts common_metas skipn nth_error mk cpi_ro ro length]; auto.
    + rewrite K5, Hx. reflexivity.
    + unfold lst_of. cbn [kn_lst_mint]. unfold cfg_mint. rewrite K5. reflexivity.
    + cbn [pool_current]. destruct (ma_paused x); [discriminate|auto].
  - assert (HK : cc_kind (spl_cfg dp s) = KSpl) by (destruct s; auto).
    split; cbv [key_at pool_of client_accs kn_ix_accounts common_metas skipn nth_error mk cpi_ro ro length]; auto.
    + rewrite HK, Hx. reflexivity.
    + unfold lst_of. rewrite HK. cbn [kn_lst_mint] in *. symmetry. apply Hmint; auto.
Qed.

(** Results of the value arithmetic are u64s. *)
Lemma kn_calc_typed k c : calc_in_sync dp pw k -> kn_calc (pw_epoch pw) k = Ok c -> calc_typed c.
Proof.
  destruct k as [o|o|s m p o|]; intros Hs H; try (injection H as <-; exact I);
    destruct Hs as (x & -> & Hx); cbn [kn_calc of_option bind] in H; inv_ok.
  all: match type of Hx with pdata _ ?k = _ => pose proof (HT k) as Ht; rewrite Hx in Ht; exact Ht end.
Qed.

Lemma l2s_u64 c x v : calc_typed c -> U64 x -> calc_lst_to_sol c x = Ok v -> U64 (fst v) /\ U64 (snd v).
Proof.
  intros Ht Hx H. unfold U64 in Hx. apply calc_lst_to_sol_exact in H as (Ha & ->); [|auto|lia]. cbn [fst snd].
  assert (U64 (worth c x)); [|auto]. split.
  - apply worth_nonneg; [auto|eapply answers_fee; eauto|lia].
  - destruct c as [|p|p|p]; cbn [answers] in Ha; [cbn [worth]; lia|lia|lia|]. cbn [worth]. destruct Ha as (_ & Ha & _).
    destruct Ht as (_ & _ & _ & _ & _ & Hs & Hf).
    assert (0 <= down (share x (marinade_total p) (ma_msol_supply p) * ma_fee_cents p) 1000000).
    { apply Z.div_pos; [|lia]. unfold U64 in *. pose proof (share_nonneg x (marinade_total p) (ma_msol_supply p)
        ltac:(lia) (marinade_total_nonneg p) ltac:(lia)). nia. }
    lia.
Qed.
Lemma s2l_u64 c s v : U64 s -> calc_sol_to_lst R c s = Ok v -> U64 (fst v) /\ U64 (snd v).
Proof.
  intros Hs H. destruct HR as (_ & _ & _ & H1 & H2 & H3). destruct c as [|p|p|p]; cbn [calc_sol_to_lst] in H.
  - injection H as <-. auto.
  - unfold spl_sol_to_lst in H. apply bind_ok in H as (r & _ & H). apply guard_ok in H as (_ & H).
    apply bind_ok in H as ((a1 & a2) & Ha & H). apply bind_ok in H as ((b1 & b2) & Hb & H).
    apply try_from_min_max_ok in H as (-> & _). apply H2 in Ha, Hb. cbn [fst snd]. tauto.
  - destruct v as (a & b). apply H1 in H as (? & ? & ?). auto.
  - unfold marinade_sol_to_lst in H. apply guard_ok in H as (_ & H). apply bind_ok in H as (r & _ & H).
    apply bind_ok in H as (t & _ & H).
    apply bind_ok in H as ((a1 & a2) & Ha & H). apply bind_ok in H as ((b1 & b2) & Hb & H).
    apply try_from_min_max_ok in H as (-> & _). apply H1 in Ha, Hb. cbn [fst snd]. tauto.
Qed.

(** Asking the chain, with the client's accounts. *)
Definition ask_l2s (w : World) (k : KnownCalc) (x : Z) : res (Z * Z) :=
  e_lst_to_sol E w (kn_program_id dp k) (kn_lst_mint dp k) (skipn 1 (kn_ix_accounts dp k)) x.
Definition ask_s2l (w : World) (k : KnownCalc) (x : Z) : res (Z * Z) :=
  e_sol_to_lst E w (kn_program_id dp k) (kn_lst_mint dp k) (skipn 1 (kn_ix_accounts dp k)) x.

Lemma wsol_or_program k : k = KnWsol \/ exists cfg, calc_program dp k = Some cfg /\ (kn_program_id dp k =? dp_wsol dp) = false.
Proof. rewrite wsol_known. destruct k; cbn [calc_program]; eauto. Qed.

Lemma chain_known_l2s w k x v : calc_in_sync dp pw k -> ask_l2s w k x = Ok v -> kn_lst_to_sol (pw_epoch pw) k x = Ok v.
Proof.
  intros Hs. unfold ask_l2s, kn_lst_to_sol. cbn [e_lst_to_sol deployed_env]. unfold calc_answer.
  destruct (wsol_or_program k) as [->|(cfg & Hc & ->)].
  - rewrite wsol_known. cbn. auto.
  - rewrite calc_cfg_known, Hc. cbn [calc_process]. intros H. inv_ok. 
    match goal with Hq : verify_lst_sol_common _ _ _ = Ok _ |- _ => apply verify_common_iff in Hq;
      rewrite (quotable_known k cfg _ Hc Hs Hq) end. cbn [bind of_option] in *. congruence.
Qed.
Lemma known_chain_l2s w k x v : calc_in_sync dp pw k -> calc_ready dp pw k ->
  kn_lst_to_sol (pw_epoch pw) k x = Ok v -> ask_l2s w k x = Ok v.
Proof.
  intros Hs Hr. unfold ask_l2s, kn_lst_to_sol. cbn [e_lst_to_sol deployed_env]. unfold calc_answer.
  destruct (wsol_or_program k) as [->|(cfg & Hc & ->)].
  - rewrite wsol_known. cbn. auto.
  - rewrite calc_cfg_known, Hc. cbn [calc_process]. intros H. apply bind_ok in H as (c & Hk & H).
    pose proof (known_quotable k cfg c Hc Hs Hr Hk) as Hq. apply verify_common_iff in Hq. unfold client_accs in Hq.
    rewrite Hq. cbn [bind]. rewrite H. reflexivity.
Qed.
Lemma chain_known_s2l w k x v : calc_in_sync dp pw k -> ask_s2l w k x = Ok v -> kn_sol_to_lst R (pw_epoch pw) k x = Ok v.
Proof.
  intros Hs. unfold ask_s2l, kn_sol_to_lst. cbn [e_sol_to_lst deployed_env]. unfold calc_answer.
  destruct (wsol_or_program k) as [->|(cfg & Hc & ->)].
  - rewrite wsol_known. cbn. auto.
  - rewrite calc_cfg_known, Hc. cbn [calc_process]. intros H. inv_ok.
    match goal with Hq : verify_lst_sol_common _ _ _ = Ok _ |- _ => apply verify_common_iff in Hq;
      rewrite (quotable_known k cfg _ Hc Hs Hq) end. cbn [bind of_option] in *. congruence.
Qed.
Lemma known_chain_s2l w k x v : calc_in_sync dp pw k -> calc_ready dp pw k ->
  kn_sol_to_lst R (pw_epoch pw) k x = Ok v -> ask_s2l w k x = Ok v.
Proof.
  intros Hs Hr. unfold ask_s2l, kn_sol_to_lst. cbn [e_sol_to_lst deployed_env]. unfold calc_answer.
  destruct (wsol_or_program k) as [->|(cfg & Hc & ->)].
  - rewrite wsol_known. cbn. auto.
  - rewrite calc_cfg_known, Hc. cbn [calc_process]. intros H. apply bind_ok in H as (c & Hk & H).
    pose proof (known_quotable k cfg c Hc Hs Hr Hk) as Hq. apply verify_common_iff in Hq. unfold client_accs in Hq.
    rewrite Hq. cbn [bind]. rewrite H. reflexivity.
Qed.

(** Through the controller's decoding of return data. *)
Definition kn_cpi (k : KnownCalc) : Cpi := mkCpi (ro (kn_program_id dp k)) (skipn 1 (kn_ix_accounts dp k)).
Lemma u64b_t x : U64 x -> u64b x = true.
Proof. unfold U64, u64b. rewrite andb_true_iff, !Z.leb_le. auto. Qed.
Lemma inv_l2s w k x v : calc_in_sync dp pw k -> calc_ready dp pw k -> U64 x ->
  kn_lst_to_sol (pw_epoch pw) k x = Ok v -> invoke_lst_to_sol E w (kn_cpi k) (kn_lst_mint dp k) x = Ok v.
Proof.
  intros Hs Hr Hx H. pose proof (known_chain_l2s w k x v Hs Hr H) as Ha.
  unfold invoke_lst_to_sol, kn_cpi; cbn [cpi_prog cpi_accs mk ro]. unfold ask_l2s in Ha. rewrite Ha.
  unfold kn_lst_to_sol in H. apply bind_ok in H as (c & Hc & H).
  apply l2s_u64 in H as (H1 & H2); [|eapply kn_calc_typed; eauto|auto]. destruct v as (a & b).
  cbn [decode_range of_ext bind fst snd] in *. rewrite !u64b_t by auto. reflexivity.
Qed.
Lemma inv_s2l w k x v : calc_in_sync dp pw k -> calc_ready dp pw k -> U64 x ->
  kn_sol_to_lst R (pw_epoch pw) k x = Ok v -> invoke_sol_to_lst E w (kn_cpi k) (kn_lst_mint dp k) x = Ok v.
Proof.
  intros Hs Hr Hx H. pose proof (known_chain_s2l w k x v Hs Hr H) as Ha.
  unfold invoke_sol_to_lst, kn_cpi; cbn [cpi_prog cpi_accs mk ro]. unfold ask_s2l in Ha. rewrite Ha.
  unfold kn_sol_to_lst in H. apply bind_ok in H as (c & Hc & H).
  apply s2l_u64 in H as (H1 & H2); [|auto]. destruct v as (a & b).
  cbn [decode_range of_ext bind fst snd] in *. rewrite !u64b_t by auto. reflexivity.
Qed.
(** A calculator's only failure is its own refusal. *)
Lemma inv_l2s_err w k x e : calc_in_sync dp pw k -> U64 x ->
  invoke_lst_to_sol E w (kn_cpi k) (kn_lst_mint dp k) x = Err e -> e = ExternalErr.
Proof.
  intros Hs Hx. unfold invoke_lst_to_sol, kn_cpi; cbn [cpi_prog cpi_accs mk ro].
  destruct (e_lst_to_sol E w (kn_program_id dp k) (kn_lst_mint dp k) (skipn 1 (kn_ix_accounts dp k)) x) as [v|e'] eqn:Ha;
    [|cbn; congruence].
  pose proof (chain_known_l2s w k x v Hs Ha) as H. unfold kn_lst_to_sol in H. apply bind_ok in H as (c & Hc & H).
  apply l2s_u64 in H as (H1 & H2); [|eapply kn_calc_typed; eauto|auto]. destruct v as (a & b).
  cbn [decode_range of_ext bind fst snd] in *. rewrite !u64b_t by auto. discriminate.
Qed.
End Calc.

(* ------------------------------------------------------------------ *)
(** * Pricing *)

Section Price.
Context (R : RatioLib) (dp : Deploy) (pw : PWorld) (other : Env).
Notation F := (dp_flat dp).
Notation E := (deployed_env R dp pw other).
Hypothesis HR : ratio_lib_ok R.
Hypothesis HF : flat_derive_ok F.
Hypothesis HP : flat_reachable R F pw.
Context (p : KnownFlat) (mints : list key).
Hypothesis HS : pricing_in_sync dp pw p mints.

Lemma chain_fee_bump m b i o : chain_fee F pw m = Some (b, i, o) ->
  fd_create F m b = Some (fst (fd_find F m)) /\ fee_ok_range i /\ fee_ok_range o.
Proof.
  pose proof (flat_reachable_inv _ _ _ HF HP) as HI. pose proof HF as (D1 & _). unfold chain_fee, pdata.
  destruct (fi_fee _ _ HI _ _ _ (D1 m)) as [Hn|(Hb & x & y & Ha & Hx & Hy)].
  - rewrite Hn. discriminate.
  - rewrite Ha. cbn [pa_data]. intros [= <- <- <-]. rewrite <- (D1 m). auto.
Qed.
Lemma fee_account_chain m : In m mints ->
  kf_fee_account p m = of_option (Prog UnsupportedLstMint) (chain_fee F pw m).
Proof.
  intros Hm. unfold kf_fee_account. rewrite (proj2 HS m Hm). destruct (chain_fee F pw m); reflexivity.
Qed.
Lemma swap_accounts_known i o : In i mints -> In o mints ->
  kf_swap_accounts dp p i o = Ok [ro i; ro o; ro (fst (fd_find F i)); ro (fst (fd_find F o))].
Proof.
  intros Hi Ho. unfold kf_swap_accounts. rewrite !fee_account_chain by auto.
  destruct (chain_fee F pw i) as [((b & x) & y)|] eqn:E1; [|reflexivity].
  destruct (chain_fee F pw o) as [((b' & x') & y')|] eqn:E2; [|reflexivity]. cbn [of_option fst].
  apply chain_fee_bump in E1 as (-> & _), E2 as (-> & _). reflexivity.
Qed.

Lemma flat_answer prog accs ix oth : prog = ff_id F ->
  price_answer R dp pw oth prog accs ix = ('(_, r) <- flat_process R F pw accs ix ;; of_option InvalidData r).
Proof. intros ->. unfold price_answer. rewrite Z.eqb_refl. reflexivity. Qed.

Definition fee_metas (i o : key) : list Meta := [ro (fst (fd_find F i)); ro (fst (fd_find F o))].
Lemma verify_price_known i o f g : In i mints -> In o mints ->
  (exists b, exists y, kf_fee_account p i = Ok (b, f, y)) /\ (exists b, exists x, kf_fee_account p o = Ok (b, x, g)) <->
  verify_price_exact F pw (cpi_ro i :: cpi_ro o :: fee_metas i o) = Ok (f, g).
Proof.
  intros Hi Ho. rewrite (verify_price_iff R) by auto. rewrite !fee_account_chain by auto.
  unfold lst_fees, chain_fee, price_accounts, key_at. cbn [fee_metas nth_error mk cpi_ro ro length].
  destruct (pdata pw (fst (fd_find F i))) as [| | | | | | | |b1 f1 g1| |] eqn:E1;
    try (split; [intros ((? & ? & H) & _); discriminate|intros (_ & (? & H) & _); discriminate]).
  destruct (pdata pw (fst (fd_find F o))) as [| | | | | | | |b2 f2 g2| |] eqn:E2;
    try (split; [intros (_ & ? & ? & H); discriminate|intros (_ & _ & ? & H); discriminate]).
  cbn [of_option]. split.
  - intros ((? & ? & [= <- <- <-]) & ? & ? & [= <- <- <-]). repeat split; eauto; lia.
  - intros (_ & (? & [= <- <-]) & ? & [= <- <-]). eauto 10.
Qed.

Lemma price_same (calc : Z -> Z -> res Z) i o r : In i mints -> In o mints ->
  (f <- verify_price_exact F pw (cpi_ro i :: cpi_ro o :: fee_metas i o) ;; calc (fst f) (snd f)) = Ok r <->
  (fi <- kf_fee_account p i ;; fo <- kf_fee_account p o ;; calc (snd (fst fi)) (snd fo)) = Ok r.
Proof.
  intros Hi Ho. split.
  - intros H. apply bind_ok in H as ((f & g) & H1 & H2). apply verify_price_known in H1 as ((b & y & ->) & b' & x & ->); auto.
  - intros H. apply bind_ok in H as (((b & f) & y) & H1 & H). apply bind_ok in H as (((b' & x) & g) & H2 & H).
    cbn [fst snd] in H. rewrite (proj1 (verify_price_known i o f g Hi Ho)) by eauto 10. exact H.
Qed.
Lemma ret_ok {A} (m : res A) (pw0 : PWorld) r :
  ('(_, x) <- (y <- m ;; Ok (pw0, Some y)) ;; of_option InvalidData x) = Ok r <-> m = Ok r.
Proof. destruct m; cbn; split; congruence. Qed.
Lemma price_in_iff w i o a v r : In i mints -> In o mints ->
  e_price_exact_in E w (ff_id F) i o (fee_metas i o) a v = Ok r <-> kf_quote_exact_in p i o v = Ok r.
Proof.
  intros Hi Ho. cbn [e_price_exact_in deployed_env]. rewrite flat_answer by auto. cbn [flat_process].
  rewrite ret_ok. apply (price_same (fun f g => calculate_price_exact_in f g v)); auto.
Qed.
Lemma price_out_iff w i o a v r : In i mints -> In o mints ->
  e_price_exact_out E w (ff_id F) i o (fee_metas i o) a v = Ok r <-> kf_quote_exact_out R p i o v = Ok r.
Proof.
  intros Hi Ho. cbn [e_price_exact_out deployed_env]. rewrite flat_answer by auto. cbn [flat_process].
  rewrite ret_ok. apply (price_same (fun f g => calculate_price_exact_out R f g v)); auto.
Qed.
Lemma price_mint_iff w m accs a v r :
  e_price_lp_to_mint E w (ff_id F) m accs a v = Ok r <-> kf_quote_mint p v = Ok r.
Proof.
  cbn [e_price_lp_to_mint deployed_env]. rewrite flat_answer by auto. cbn [flat_process]. rewrite ret_ok. reflexivity.
Qed.
Lemma price_redeem_iff w m a v r :
  e_price_lp_to_redeem E w (ff_id F) m [ro (ff_state F)] a v = Ok r <-> kf_quote_redeem p v = Ok r.
Proof.
  cbn [e_price_lp_to_redeem deployed_env]. rewrite flat_answer by auto. cbn [flat_process]. rewrite ret_ok.
  unfold process_price_lp_tokens_to_redeem, kf_quote_redeem, try_program_state. rewrite (proj1 HS).
  cbn [keys_match mk cpi_ro ro]. rewrite !Z.eqb_refl. cbn [andb guard]. unfold chain_state.
  destruct (pdata pw (ff_state F)); cbn [of_option bind]; try (split; discriminate). reflexivity.
Qed.

(** Prices are u64s. *)
Lemma in_u64 i o v r : U64 v -> In i mints -> In o mints -> kf_quote_exact_in p i o v = Ok r -> U64 r.
Proof.
  intros Hv Hi Ho. unfold kf_quote_exact_in. rewrite !fee_account_chain by auto. intros H.
  apply bind_ok in H as (((b & f) & y) & H1 & H). apply bind_ok in H as (((b' & x) & g) & H2 & H).
  apply of_option_ok in H1, H2. apply chain_fee_bump in H1 as (_ & Hf & _), H2 as (_ & _ & Hg). cbn [fst snd] in H.
  unfold calculate_price_exact_in in H. apply bind_ok in H as (q & Hq & H). apply map_err_ok in H.
  apply ratio_iff in Hq as (Hq & ->); auto. apply floor_apply_share in H as (-> & H). split; auto.
  unfold U64 in Hv. apply share_nonneg; try lia. unfold BPS_DENOMINATOR. lia.
Qed.
Lemma out_u64 i o v r : U64 v -> In i mints -> In o mints -> kf_quote_exact_out R p i o v = Ok r -> U64 r.
Proof.
  intros Hv Hi Ho. unfold kf_quote_exact_out. rewrite !fee_account_chain by auto. intros H.
  apply bind_ok in H as (((b & f) & y) & H1 & H). apply bind_ok in H as (((b' & x) & g) & H2 & H).
  unfold calculate_price_exact_out in H. apply bind_ok in H as (q & Hq & H). apply bind_ok in H as ((lo & hi) & H3 & H).
  apply map_err_ok in H3. destruct HR as (_ & _ & _ & HU & _). apply HU in H3. injection H as <-. cbn [snd]. tauto.
Qed.
Lemma redeem_u64 v r : U64 v -> kf_quote_redeem p v = Ok r -> U64 r.
Proof.
  intros Hv. unfold kf_quote_redeem. rewrite (proj1 HS). intros H. apply bind_ok in H as ((m & f) & H1 & H).
  apply of_option_ok in H1. cbn [snd] in H. pose proof (flat_reachable_inv _ _ _ HF HP) as HI.
  destruct (fi_state _ _ HI) as [Hn|(m' & f' & Hn & Hf)]; unfold chain_state, pdata in H1; rewrite Hn in H1;
    cbn [pa_data no_account] in H1; [discriminate|]. injection H1 as <- <-.
  unfold calculate_price_lp_tokens_to_redeem in H. apply map_err_ok in H.
  apply ceil_fee_after_ok in H as (_ & ->); [|lia|unfold BPS_DENOMINATOR; lia].
  unfold U64, BPS_DENOMINATOR, ceil_fee in *. destruct ((f' =? 0) || (10000 =? 0)); [lia|].
  assert (0 <= ceil_div (v * f') 10000 <= v); [|lia]. split.
  - assert (ceil_div 0 10000 = 0) as <- by reflexivity. apply ceil_div_mono; lia.
  - apply ceil_div_spec; nia.
Qed.
End Price.
