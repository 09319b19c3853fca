(** C55: what commands cost and refund. *)
From Coq Require Import ZArith List Bool Lia.
From Verif Require Import Base Ratio Calc State Controller Inversion ProcInv Spec InvProofs AccessProofs Serde SerdeProofs PropSerde Client ClientSpec ClientProofs
  AdminSpec PropAdmin CliAdmin CliAdminSpec PropCliAdmin Periph PeriphSpec PeriphProofs PropFlat PeriphCli PeriphCliSpec PropPeriphCli
  Rent RentSpec PropRent RentCli RentCliSpec.
Import ListNotations.
Open Scope Z_scope.

Lemma runL_built Rs D E C s metas ix : ix_wfb ix = true -> runL Rs D E C s (built metas ix) = processL Rs D E C s metas ix.
Proof.
  intros H. unfold runL, built. cbn [ti_prog ti_accs ti_data]. rewrite Z.eqb_refl. cbn [guard].
  pose proof (dec_enc ix [] H) as Hd. rewrite app_nil_r in Hd. rewrite Hd. reflexivity.
Qed.
Lemma runL_run Rs D E C s t s' : runL Rs D E C s t = Ok s' -> run D E C (fst s) t = Ok (fst s').
Proof.
  unfold runL, run, process_instruction. intros H. apply guard_ok in H as (-> & H). apply bind_ok in H as (ix & -> & H). cbn [bind guard].
  unfold processL in H. apply bind_ok in H as (w' & Hw & H). apply bind_ok in H as (lam' & _ & [= <-]). exact Hw.
Qed.
Lemma cameL Rs D E C s payer auth c s' : commandL Rs D E C s payer auth c = Ok s' ->
  exists create t w1 lam1, plan D (fst s) payer auth c = Ok (create, t) /\ signed payer auth t = true /\
    match create with Some (ata, wl, m, tp) => create_ata_account (fst s) ata wl m tp | None => Ok (fst s) end = Ok w1 /\
    match create with Some (ata, wl, m, tp) => create_ata_rent Rs (fst s) (snd s) payer ata tp m | None => Ok (snd s) end = Ok lam1 /\
    runL Rs D E C (w1, lam1) t = Ok s'.
Proof.
  intros H. unfold commandL in H. apply bind_ok in H as ((create & t) & Hp & H). apply guard_ok in H as (Hs & H).
  apply bind_ok in H as (w1 & H1 & H). apply bind_ok in H as (lam1 & H2 & H). exists create, t, w1, lam1. auto.
Qed.
(** Lamports add nothing to what a command does. *)
Lemma commandL_command Rs D E C s payer auth c s' : commandL Rs D E C s payer auth c = Ok s' ->
  command D E C (fst s) payer auth c = Ok (fst s').
Proof.
  intros H. apply cameL in H as (create & t & w1 & lam1 & Hp & Hs & H1 & _ & H). unfold command. rewrite Hp. cbn [bind]. rewrite Hs. cbn [guard].
  rewrite H1. cbn [bind]. apply runL_run in H. exact H.
Qed.
Lemma remove_keys D E C w accs i w' : derive_ok D -> reachable D w -> process D E C w accs (RemoveLst i) = Ok w' ->
  key_at accs 3 = reserves_key D w (key_at accs 2) /\ key_at accs 4 = accumulator_key D w (key_at accs 2).
Proof.
  intros HD HR H. destruct (C48_only_permitted D HD E C w HR (RemoveLst i) accs w' eq_refl H) as (asked & more & ch & Ru & P & A).
  inversion Ru; subst. take. unfold key_at. cbn [nth_error].
  repeat match goal with X : mk _ = _ |- _ => rewrite X in * end. auto.
Qed.

(** Every command of the operator's tool moves SOL exactly so. *)
Theorem C55_commands Rs D E C s payer auth c s' : rents_ok Rs -> derive_ok D -> reachable_lam Rs D s -> cmd_typed c ->
  commandL Rs D E C s payer auth c = Ok s' ->
  settled (snd s) (cmd_flows Rs D (fst s) (snd s) payer auth c) (snd s') /\
  exists ch, cmd_rule D E (fst s) payer auth c ch /\ applied (fst s) ch (fst s').
Proof.
  intros HRs HD HR Ht H. pose proof (C55_rent_exempt Rs D HRs HD s HR) as (HR0 & _). split.
  2:{ eapply C53_only; eauto. eapply commandL_command; eauto. }
  apply cameL in H as (create & t & w1 & lam1 & Hp & Hs & Hc & Hl & H).
  assert (Hplain : forall metas ix, create = None -> t = built metas ix -> ix_wfb ix = true ->
    processL Rs D E C s metas ix = Ok s').
  { intros metas ix -> -> Hwf. injection Hc as <-. injection Hl as <-. rewrite runL_built in H by exact Hwf. destruct s. exact H. }
  assert (Hreal : forall metas ix, create = None -> t = built metas ix -> ix_wfb ix = true ->
    settled (snd s) (rent_flows Rs (fst s) (snd s) metas ix) (snd s')).
  { intros metas ix Hn Hb Hwf. eapply C55_flows; eauto. }
  assert (Hquiet : forall metas ix, create = None -> t = built metas ix -> ix_wfb ix = true ->
    rent_flows Rs (fst s) (snd s) metas ix = [] -> settled (snd s) [] (snd s')).
  { intros metas ix Hn Hb Hwf Hf. rewrite <- Hf. eapply C55_flows; eauto. }
  destruct c; cbn [plan] in Hp; cbn [cmd_flows].
  - injection Hp as <- <-. specialize (Hplain _ _ eq_refl eq_refl eq_refl). exact (C55_flows Rs D HRs HD E C s _ _ s' HR Hplain).
  - unfold client_set_admin in Hp. unplan Hp. injection Hp as <- <-. unplan Ha1. injection Ha1 as <-. eapply Hquiet; reflexivity.
  - unfold client_set_protocol_fee in Hp. unplan Hp. injection Hp as <- <-. unplan Ha1. injection Ha1 as <-.
    eapply Hquiet; [reflexivity|reflexivity| |reflexivity]. destruct Ht as (Ht1 & Ht2). cbn [ix_wfb]. rewrite (opt16 _ Ht1), (opt16 _ Ht2). reflexivity.
  - unfold client_set_protocol_fee_beneficiary in Hp. unplan Hp. injection Hp as <- <-. unplan Ha1. injection Ha1 as <-. eapply Hquiet; reflexivity.
  - unfold client_set_pricing_program in Hp. unplan Hp. injection Hp as <- <-. unplan Ha1. injection Ha1 as <-. eapply Hquiet; reflexivity.
  - unfold client_set_rebalance_authority in Hp. unplan Hp. injection Hp as <- <-. 
    destruct (admin _ =? auth); [|destruct (rebalance_authority _ =? auth); [|discriminate]]; unplan Ha0; injection Ha0 as <-; eapply Hquiet; reflexivity.
  - unfold client_add_disable_pool_authority in Hp. unplan Hp. injection Hp as <- <-. unplan Ha1. injection Ha1 as <-.
    specialize (Hplain _ _ eq_refl eq_refl eq_refl). exact (C55_flows Rs D HRs HD E C s _ _ s' HR Hplain).
  - unfold client_remove_disable_pool_authority in Hp. unplan Hp. injection Hp as <- <-. unplan Ha2. injection Ha2 as <-. facts.
    exact (Hreal _ _ eq_refl eq_refl Ha5).
  - unplan Hp. injection Hp as <- <-. eapply Hquiet; reflexivity.
  - unfold client_enable_pool in Hp. unplan Hp. injection Hp as <- <-. unplan Ha1. injection Ha1 as <-. eapply Hquiet; reflexivity.
  - unfold client_disable_lst_input, client_set_lst_input in Hp. unplan Hp. injection Hp as <- <-. unplan Ha1.
    match goal with a : Z * LstState |- _ => destruct a as (i & ls) end. unplan Ha1. injection Ha1 as <-. facts.
    eapply Hquiet; [reflexivity|reflexivity|match goal with X : u32b _ = true |- _ => exact X end|reflexivity].
  - unfold client_enable_lst_input, client_set_lst_input in Hp. unplan Hp. injection Hp as <- <-. unplan Ha.
    match goal with a : Z * LstState |- _ => destruct a as (i & ls) end. unplan Ha. injection Ha as <-. facts.
    eapply Hquiet; [reflexivity|reflexivity|match goal with X : u32b _ = true |- _ => exact X end|reflexivity].
  - unfold client_add_lst in Hp. unplan Hp. injection Hp as <- <-. unplan Ha2. injection Ha2 as <-.
    exact (Hreal _ _ eq_refl eq_refl eq_refl).
  - unfold client_remove_lst in Hp. unplan Hp. injection Hp as <- <-. unplan Ha0.
    match goal with a : Z * LstState |- _ => destruct a as (i & ls) end. unplan Ha0. injection Ha0 as <-.
    match goal with X : u32b _ = true |- _ => pose proof (Hreal _ _ eq_refl eq_refl X) as Hset; pose proof (Hplain _ _ eq_refl eq_refl X) as Hrun end.
    apply processL_ok in Hrun as (Hrun & _). apply remove_keys in Hrun as (K3 & K4); [|exact HD|exact HR0].
    unfold rent_flows in Hset. rewrite K3, K4 in Hset. exact Hset.
  - unfold client_set_sol_value_calculator, extend_with_calc in Hp. unplan Hp. injection Hp as <- <-. unplan Ha2.
    match goal with a : Z * LstState |- _ => destruct a as (i & ls) end. unplan Ha2.
    match goal with a : list Meta * Z |- _ => destruct a as (g & n) end. unplan Ha2. injection Ha2 as <-.
    match goal with X : guard _ _ _ = Ok (g, n) |- _ => unplan X; injection X as <- _ end. facts.
    eapply Hquiet; [reflexivity|reflexivity|match goal with X : u32b _ = true |- _ => exact X end|reflexivity].
  - set (to := match withdraw_to with Some k => k | None => fst (d_find D auth token_program mint) end) in *.
    apply bind_ok in Hp as (ps & Hps & Hp). apply bind_ok in Hp as (bal & Hbal & Hp). apply bind_ok in Hp as (u & Hv & Hp).
    apply bind_ok in Hp as (cr & Hcr & Hp). injection Hp as <- <-. facts. unfold token_account_balance, find_protocol_fee_accumulator_address in *.
    apply bind_ok in Hbal as (tf & Hf & [= <-]). apply of_option_ok in Hf.
    set (a := match amount with Some x => x | None => ta_amount tf end) in *.
    assert (Ha : U64 a).
    { destruct (reachable_inv D HD _ HR0) as ((l & au & _ & _ & _ & _ & _ & (U1 & _) & _) & _). unfold a. destruct amount as [x|]; [apply Ht; reflexivity|].
      exact (U1 _ _ Hf). }
    assert (Hwf : ix_wfb (WithdrawProtocolFees a) = true) by (cbn [ix_wfb]; unfold u64b; rewrite andb_true_iff, !Z.leb_le; exact Ha).
    unfold acc_exists in Hcr. rewrite runL_built in H by exact Hwf. apply processL_ok in H as (_ & H). cbn [lam_step fst snd] in H. injection H as <-.
    assert (Hstay : cr = None -> settled (snd s) [] lam1).
    { intros ->. injection Hl as <-. intros k. unfold paid_out, received. cbn. lia. }
    destruct (w_tok (fst s) to) as [tt|] eqn:Tt; [|destruct (w_mint (fst s) to) eqn:Mt].
    + injection Hcr as <-. auto.
    + injection Hcr as <-. auto.
    + assert (Hto : cr = Some (to, auth, mint, token_program)).
      { destruct (Z.eqb_spec to (fst (d_find D auth token_program mint))) as [E9|]; [|discriminate]. injection Hcr as <-. now rewrite E9. }
      subst cr. unfold create_ata_rent in Hl. rewrite Tt in Hl. apply pay_ok in Hl as (_ & _ & _ & F).
      intros k. rewrite F. unfold paid_out, received, ifk. cbn [map sumZ fl_from fl_to fl_amount]. lia.
Qed.

(* ------------------------------------------------------------------ *)
(** * The managers' tools *)
Lemma init_rent_ok Rs pw lam payer k n lam' : init_rent Rs pw lam payer k n = Ok lam' ->
  settled lam [mkFlow payer k (short Rs lam k n)] lam'.
Proof.
  unfold init_rent, short. intros H. apply guard_ok in H as (Hn & H). apply negb_true_iff, Z.eqb_neq in Hn.
  intros j. unfold paid_out, received. cbn [map sumZ fl_from fl_to fl_amount].
  destruct (Z.leb_spec (rent_for Rs n) (lam k)).
  - injection H as <-. replace (Z.max 0 (rent_for Rs n - lam k)) with 0 by lia. destruct (payer =? j), (k =? j); lia.
  - apply guard_ok in H as (_ & H). apply move_ok in H as (_ & F). rewrite F.
    replace (Z.max 0 (rent_for Rs n - lam k)) with (rent_for Rs n - lam k) by lia. unfold ifk. lia.
Qed.
Lemma init_rent_runs Rs pw lam payer k n : payer <> k -> powner pw payer = SYSTEM_PROGRAM_ID -> short Rs lam k n <= lam payer ->
  exists lam', init_rent Rs pw lam payer k n = Ok lam'.
Proof.
  intros Hn Ho Hs. unfold init_rent. destruct (Z.eqb_spec payer k); [congruence|]. cbn [negb guard].
  destruct (Z.leb_spec (rent_for Rs n) (lam k)); [eauto|]. rewrite Ho. cbn [guard]. apply move_runs. unfold short in Hs. lia.
Qed.
Lemma settled_nil lam : settled lam [] lam.
Proof. intros k. unfold paid_out, received. cbn. lia. Qed.

Lemma settled_zero lam a b : lam a = 0 -> settled lam [mkFlow a b (lam a)] lam.
Proof. intros H k. unfold paid_out, received. cbn [map sumZ fl_from fl_to fl_amount]. rewrite H. destruct (a =? k), (b =? k); lia. Qed.
Theorem C55_flat_commands Rs R F s payer mgr c s' : flat_derive_ok F -> flat_reachable R F (fst s) ->
  flat_commandL Rs R F s payer mgr c = Ok s' ->
  settled (snd s) (flat_flows Rs F (snd s) payer c) (snd s') /\
  exists m' l' f', flat_cmd_rule F (fst s) mgr c m' l' f' /\ flat_becomes F (fst s) (fst s') m' l' f'.
Proof.
  intros HD HR H. unfold flat_commandL in H. apply bind_ok in H as ((metas & ix) & Hp & H). apply guard_ok in H as (Hs & H).
  apply bind_ok in H as ((pw' & r) & Hr & H). apply bind_ok in H as (lam' & Hl & [= <-]). cbn [fst snd]. split.
  2:{ eapply C54_flat_only; eauto. unfold flat_command. rewrite Hp. cbn [bind]. rewrite Hs. cbn [guard]. rewrite Hr. reflexivity. }
  destruct c; cbn [flat_plan] in Hp; unplan Hp; injection Hp as <- <-; cbn [flat_lam_step flat_flows] in *;
    try (injection Hl as <-; apply settled_nil).
  - apply init_rent_ok in Hl. exact Hl.
  - apply init_rent_ok in Hl. exact Hl.
  - cbn [mk wr flat_remove_lst_metas] in Hl. destruct (powner (fst s) (fst (fd_find F mint)) =? ff_id F).
    + apply close_ok in Hl as (_ & Hl). intros k. rewrite Hl. unfold paid_out, received, ifk. cbn [map sumZ fl_from fl_to fl_amount]. lia.
    + apply guard_ok in Hl as (Hz & [= <-]). apply settled_zero. now apply Z.eqb_eq.
Qed.
Theorem C55_calc_commands Rs R cfg loader_pda s payer mgr c s' :
  calc_commandL Rs R cfg loader_pda s payer mgr c = Ok s' ->
  settled (snd s) (calc_flows Rs cfg (snd s) payer c) (snd s') /\
  calc_command R cfg loader_pda (fst s) payer mgr c = Ok (fst s').
Proof.
  intros H. unfold calc_commandL in H. apply bind_ok in H as ((metas & ix) & Hp & H). apply guard_ok in H as (Hs & H).
  apply bind_ok in H as ((pw' & r) & Hr & H). apply bind_ok in H as (lam' & Hl & [= <-]). cbn [fst snd]. split.
  2:{ unfold calc_command. rewrite Hp. cbn [bind]. rewrite Hs. cbn [guard]. rewrite Hr. reflexivity. }
  destruct c; cbn [calc_plan] in Hp; unplan Hp; injection Hp as <- <-; cbn [calc_lam_step calc_flows] in *;
    try (injection Hl as <-; apply settled_nil).
  apply init_rent_ok in Hl. exact Hl.
Qed.

(** A manager's command that is permitted goes through, given a payer with the money (an account of the system program)
    and a refund address other than the account being closed; a mint that has no fees and whose fee address nobody has
    sent SOL to can be removed freely. *)
Theorem C55_flat_goes_through Rs R F s payer mgr c m' l' f' : flat_derive_ok F -> flat_reachable R F (fst s) ->
  flat_cmd_rule F (fst s) mgr c m' l' f' ->
  powner (fst s) payer = SYSTEM_PROGRAM_ID -> payer <> ff_state F ->
  (forall m i o, c = FAddLst m i o -> payer <> fst (fd_find F m)) ->
  (forall f, In f (flat_flows Rs F (snd s) payer c) -> fl_amount f <= snd s (fl_from f)) ->
  (forall m refund, c = FRemoveLst m refund -> refund <> fst (fd_find F m) /\ (lst_fees F (fst s) m = None -> snd s (fst (fd_find F m)) = 0)) ->
  exists s', flat_commandL Rs R F s payer mgr c = Ok s' /\ flat_becomes F (fst s) (fst s') m' l' f'.
Proof.
  intros HD HR Hrule Hpo Hps Hpf Hmoney Href.
  destruct (C54_flat_goes_through R F (fst s) payer mgr c m' l' f' HD HR Hrule) as (pw' & Hrun & Hb).
  unfold flat_command in Hrun. apply bind_ok in Hrun as ((metas & ix) & Hp & H). apply guard_ok in H as (Hs & H).
  apply bind_ok in H as ((pw2 & r) & Hr & [= ->]).
  enough (exists lam', flat_lam_step Rs F (fst s) (snd s) metas ix = Ok lam') as (lam' & Hl).
  { exists (pw', lam'). split; [|exact Hb]. unfold flat_commandL. rewrite Hp. cbn [bind]. rewrite Hs. cbn [guard]. rewrite Hr. cbn [bind]. rewrite Hl. reflexivity. }
  pose proof (flat_reachable_inv _ _ _ HD HR) as I.
  destruct c; cbn [flat_plan] in Hp; unplan Hp; injection Hp as <- <-; cbn [flat_lam_step flat_flows] in *; eauto.
  - apply init_rent_runs; [exact Hps|exact Hpo|]. exact (Hmoney _ (or_introl eq_refl)).
  - apply init_rent_runs; [eapply Hpf; reflexivity|exact Hpo|]. exact (Hmoney _ (or_introl eq_refl)).
  - cbn [mk wr flat_remove_lst_metas]. destruct (Href _ _ eq_refl) as (Hn & Hz).
    destruct (Z.eqb_spec (powner (fst s) (fst (fd_find F mint))) (ff_id F)) as [E9|N9].
    + apply close_runs. auto.
    + destruct (fee_is F (fst s) mint HD I) as [(Hf & _)|(i & o & _ & Hx)].
      * rewrite (Hz Hf). cbn. eauto.
      * unfold powner in N9. rewrite Hx in N9. cbn in N9. congruence.
Qed.
