(** C53: the administrative commands of the operator's command line tool. *)
From Coq Require Import ZArith List Bool Lia.
From Verif Require Import Base Ratio Calc State Controller Inversion ProcInv Spec CalcProofs InvProofs TokProofs
  AccessProofs ShapeProofs MoneyProofs PropState PropAccess Serde Client ClientSpec ClientProofs AdminSpec PropAdmin CliAdmin CliAdminSpec.
Import ListNotations.
Open Scope Z_scope.

Section WithDerive.
Context (D : Derive).
Hypothesis HD : derive_ok D.
Context (E : Env) (C : Ctx) (w : World) (payer auth : key).
Hypothesis HR : reachable D w.

(* ------------------------------------------------------------------ *)
(** * What the rules permit goes through *)

Lemma go w1 c create metas ix asked more ch : reachable D w1 ->
  plan D w payer auth c = Ok (create, built metas ix) -> signed payer auth (built metas ix) = true ->
  match create with Some (ata, wl, m, tp) => create_ata_account w ata wl m tp | None => Ok w end = Ok w1 ->
  ix_wfb ix = true -> admin_rule D E w1 ix asked more ch -> passes metas asked more ->
  exists w', command D E C w payer auth c = Ok w' /\ applied w1 ch w'.
Proof.
  intros Hr Hp Hs Hc Hwf R P. destruct (C48_permitted D HD E C w1 Hr ix metas asked more ch Hwf R P) as (w' & H & A).
  exists w'. split; [|exact A]. unfold command. rewrite Hp. cbn [bind]. rewrite Hs. cbn [guard]. rewrite Hc. cbn [bind].
  rewrite run_built by exact Hwf. exact H.
Qed.

Lemma pool_at ps : the_pool w = Some ps -> try_pool_state w POOL_STATE_ID = Ok ps.
Proof. unfold the_pool, try_pool_state. intros ->. reflexivity. Qed.
Lemma list_at l : the_list w = Some l -> try_lst_state_list w LST_STATE_LIST_ID = Ok l.
Proof. unfold the_list, try_lst_state_list. intros ->. reflexivity. Qed.
Lemma auth_at l : the_authorities w = Some l -> try_disable_pool_authority_list w DISABLE_POOL_AUTHORITY_LIST_ID = Ok l.
Proof. unfold the_authorities, try_disable_pool_authority_list. intros ->. reflexivity. Qed.
Lemma found_at k before ls after : ~ In (ls_mint ls) (map ls_mint before) ->
  find_lst_from k (ls_mint ls) (before ++ ls :: after) = Ok (k + Z.of_nat (length before), ls).
Proof.
  revert k. induction before as [|x t IH]; intros k Hn; cbn [app find_lst_from length].
  - rewrite Z.eqb_refl. do 2 f_equal. lia.
  - cbn [map In] in Hn. destruct (Z.eqb_spec (ls_mint x) (ls_mint ls)); [tauto|]. rewrite IH by tauto. do 2 f_equal. lia.
Qed.
Lemma found_listed before ls after : the_list w = Some (before ++ ls :: after) ->
  try_find_lst_mint_on_list (ls_mint ls) (before ++ ls :: after) = Ok (Z.of_nat (length before), ls).
Proof.
  intros Hl. unfold try_find_lst_mint_on_list. rewrite found_at; [reflexivity|].
  assert (Hn : NoDup (map ls_mint (before ++ ls :: after))) by (eapply base_list; [exact (proj1 (reachable_inv D HD w HR))|exact Hl]). rewrite map_app in Hn. cbn [map] in Hn.
  apply NoDup_remove_2 in Hn. rewrite in_app_iff in Hn. tauto.
Qed.
Lemma found_key k it before after : ~ In it before -> k = length before -> find_key it (before ++ it :: after) = Some k.
Proof.
  revert k. induction before as [|x t IH]; intros k Hn ->; cbn [app find_key length].
  - rewrite Z.eqb_refl. reflexivity.
  - cbn [In] in Hn. destruct (Z.eqb_spec x it); [tauto|]. rewrite (IH (length t)) by tauto. reflexivity.
Qed.
Lemma pos_u32 n : reachable_position n -> u32b (Z.of_nat n) = true.
Proof. unfold reachable_position, u32b. intros H. rewrite andb_true_iff, !Z.leb_le. lia. Qed.

End WithDerive.

Ltac sign := unfold signed; cbn [built ti_accs forallb existsb is_signer mk ro wr sg sgw app negb orb andb];
  rewrite ?Z.eqb_refl, ?orb_true_r; cbn [orb andb]; try reflexivity.


Ltac give := unfold passes;
  match goal with |- exists used, ?accs = used ++ ?more /\ _ =>
    let rec pre l := match l with ?a :: ?t => let r := pre t in constr:(a :: r) | _ => constr:(@nil Meta) end in
    let u := pre accs in exists u end;
  split; [cbn [app]; reflexivity|];
  repeat (apply Forall2_cons || apply Forall2_nil);
  (split; [cbn; reflexivity|split; cbn; intros; (reflexivity || discriminate)]).
Ltac planned := unfold plan, cli_verify, client_set_admin, client_set_protocol_fee, client_set_protocol_fee_beneficiary,
  client_set_pricing_program, client_set_rebalance_authority, client_add_disable_pool_authority, client_enable_pool,
  client_disable_lst_input, client_enable_lst_input, client_set_lst_input, client_add_lst, mint_fetched;
  repeat match goal with
  | H : the_pool ?w = Some _ |- context [try_pool_state ?w POOL_STATE_ID] => rewrite (pool_at _ _ H)
  | H : the_list ?w = Some _ |- context [try_lst_state_list ?w LST_STATE_LIST_ID] => rewrite (list_at _ _ H)
  | H : the_authorities ?w = Some _ |- context [try_disable_pool_authority_list ?w DISABLE_POOL_AUTHORITY_LIST_ID] => rewrite (auth_at _ _ H)
  | H : the_list ?w = Some (?b ++ ?x :: ?a) |- context [try_find_lst_mint_on_list (ls_mint ?x) (?b ++ ?x :: ?a)] => erewrite found_listed; [|eassumption|eassumption|eassumption]
  | |- context [?x =? ?x] => rewrite Z.eqb_refl
  | H : reachable_position ?n |- context [index_to_u32 (Z.of_nat ?n)] => unfold index_to_u32; rewrite (pos_u32 n H)
  | |- _ => progress cbn [bind guard]
  end.
Ltac set0 w := eapply go with (w1 := w) (create := None); [eassumption|eassumption|planned; reflexivity|sign|reflexivity|reflexivity|econstructor; eauto|give].

Lemma existsb_in au k : In k au -> existsb (fun x => x =? k) au = true.
Proof. intros H. apply existsb_exists. exists k. split; [exact H|apply Z.eqb_refl]. Qed.
Lemma opt16 o : (forall x, o = Some x -> 0 <= x <= 65535) -> opt_u16b o = true.
Proof. destruct o as [x|]; [|reflexivity]. intros H. cbn. unfold u16b, U16_MAX. specialize (H x eq_refl). rewrite andb_true_iff, !Z.leb_le. lia. Qed.

(** The controller's world after the tool's creation of an associated account. *)
Lemma create_reach D w k wallet m tp w1 : derive_ok D -> reachable D w -> k = fst (d_find D wallet tp m) -> w_mint w k = None ->
  create_ata_account w k wallet m tp = Ok w1 ->
  reachable D w1 /\ external_step D w w1 /\ w1 = put_owner (put_tok w k (Some (mkTok m wallet 0))) k tp /\ w_tok w k = None /\
  w_owner w m = tp /\ is_token_program tp = true /\ w_mint w m <> None.
Proof.
  intros HD HR Hk Hm H. unfold create_ata_account in H. apply guard_ok in H as (Htp & H).
  destruct (w_tok w k) eqn:Tk; [discriminate|]. destruct (w_mint w m) as [mi|] eqn:Mm; [|discriminate].
  apply guard_ok in H as (Ho & [= <-]). apply Z.eqb_eq in Ho.
  assert (X : external_step D w (put_owner (put_tok w k (Some (mkTok m wallet 0))) k tp)).
  { destruct (reachable_inv D HD w HR) as ((l & au & _ & _ & _ & _ & _ & U & _) & _).
    destruct (reachable_ata D HD w HR) as (A & _). constructor; try reflexivity.
    - intros j t Ht _. cbn [w_tok w_owner put_tok put_owner]. exists t. rewrite !upd_other by congruence. auto using Z.le_refl.
    - intros j i Hj. cbn [w_mint w_owner put_tok put_owner]. rewrite upd_other by congruence. split; [reflexivity|]. exists i. auto using Z.le_refl.
    - destruct U as (U1 & U2). split; [|exact U2]. intros j t. cbn [w_tok put_tok put_owner]. unfold upd.
      destruct (Z.eqb_spec j k); [intros [= <-]; vm_compute; split; discriminate|apply U1].
    - intros wl pr mm b j Hw Hc. cbn [w_mint w_tok w_owner put_tok put_owner]. destruct (A _ _ _ _ _ Hw Hc) as (A1 & A2). split; [exact A1|].
      unfold upd. destruct (Z.eqb_spec j k) as [->|]; [|exact A2]. intros t [= <-]. cbn.
      destruct HD as (Hf & Hi & _). specialize (Hf wallet tp m). rewrite <- Hk in Hf. destruct (Hi _ _ _ _ _ _ _ _ _ Hc Hf) as (-> & -> & ->). auto. }
  split; [|split; [exact X|repeat split; auto; congruence]].
  destruct HR as (w0 & Hg & Hs). exists w0. split; [exact Hg|]. eapply steps_cons; [exact Hs|]. apply step_external. exact X.
Qed.

(** What the rules permit goes through, and changes exactly what they say. *)
Theorem C53_goes_through D E C w payer auth c ch : derive_ok D -> reachable D w -> cmd_typed c ->
  cmd_rule D E w payer auth c ch ->
  exists w', command D E C w payer auth c = Ok w' /\ applied w ch w'.
Proof.
  intros HD HR Ht R. destruct R; subst.
  - (* init *) eapply go with (w1 := w) (create := None); [exact HD|exact HR|reflexivity| |reflexivity|reflexivity|eapply may_initialize; eauto|give].
    sign.
  - (* set admin *) set0 w.
  - (* fee *) eapply go with (w1 := w) (create := None); [exact HD|exact HR|planned; reflexivity|sign|reflexivity| |econstructor; eauto|give].
    destruct Ht as (Ht1 & Ht2). cbn [ix_wfb]. rewrite (opt16 _ Ht1), (opt16 _ Ht2). reflexivity.
  - set0 w.
  - set0 w.
  - (* rebalance authority *)
    destruct (Z.eqb_spec (admin ps) auth) as [Ea|Ea].
    + eapply go with (w1 := w) (create := None); [exact HD|exact HR|planned; rewrite (proj2 (Z.eqb_eq _ _) Ea); planned; reflexivity| |reflexivity|reflexivity|
        eapply may_set_rebalance_authority; [exact H|assumption|left; reflexivity]|give]. rewrite Ea. sign.
    + assert (Er : rebalance_authority ps = auth) by (destruct H0; congruence).
      eapply go with (w1 := w) (create := None); [exact HD|exact HR|planned; rewrite (proj2 (Z.eqb_neq _ _) Ea), (proj2 (Z.eqb_eq _ _) Er); planned; reflexivity| |reflexivity|reflexivity|
        eapply may_set_rebalance_authority; [exact H|assumption|right; reflexivity]|give]. rewrite Er. sign.
  - (* add authority *) set0 w.
  - (* remove authority *)
    eapply go with (w1 := w) (create := None); [exact HD|exact HR| | |reflexivity| |eapply may_remove_authority; [exact H|exact H0|reflexivity|exact H3]|].
    + planned. assert (Hx : (if admin ps =? auth then Ok tt
        else (_ <- cli_verify_disable_authority (before ++ it :: after) auth ;; cli_verify it auth)) = Ok tt).
      { destruct (Z.eqb_spec (admin ps) auth); [reflexivity|]. destruct H3 as [?|H3]; [congruence|]. unfold cli_verify_disable_authority, cli_verify.
        rewrite existsb_in by (rewrite H3; apply in_or_app; right; left; reflexivity). rewrite (proj2 (Z.eqb_eq _ _) H3). reflexivity. }
      fold (cli_verify it auth). rewrite Hx. cbn [bind]. unfold client_remove_disable_pool_authority. planned.
      rewrite (found_key (length before) it before after H1 eq_refl). cbn [of_option bind]. planned. reflexivity.
    + sign.
    + cbn [ix_wfb]. apply pos_u32. assumption.
    + give.
  - (* disable *)
    eapply go with (w1 := w) (create := None); [exact HD|exact HR| | |reflexivity| |eapply may_disable; [exact H|assumption|exact H1|exact H2]|].
    + planned. destruct (Z.eqb_spec (admin ps) auth); cbn [bind]; [reflexivity|]. destruct H2 as [?|H2]; [congruence|].
      unfold cli_verify_disable_authority. rewrite (existsb_in _ _ H2). reflexivity.
    + sign.
    + reflexivity.
    + give.
  - set0 w.
  - eapply go with (w1 := w) (create := None); [exact HD|exact HR|planned; reflexivity|sign|reflexivity|cbn [ix_wfb]; apply pos_u32; assumption|eapply may_disable_input; eauto|give].
  - eapply go with (w1 := w) (create := None); [exact HD|exact HR|planned; reflexivity|sign|reflexivity|cbn [ix_wfb]; apply pos_u32; assumption|eapply may_enable_input; eauto|give].
  - (* add LST *)
    eapply go with (w1 := w) (create := None); [exact HD|exact HR|planned; rewrite H5; planned; reflexivity|sign|reflexivity|reflexivity|eapply may_add_lst; eauto|give].
  - (* remove LST *)
    destruct (C39_listed_accounts_exist D w _ ls HD HR H2 (nth_error_In _ _ (nth_here before after ls)))
      as (Tp & Mm & r & f & tr & tf & Fr & Cr & Ff & Cf & Hr & _ & Or & Pr & Hf & _ & Of & Pf & Hrf).
    eapply go with (w1 := w) (create := None); [exact HD|exact HR| | |reflexivity| |eapply may_remove_lst; eauto|].
    + planned. destruct (w_mint w (ls_mint ls)); [|congruence]. planned. unfold client_remove_lst. planned.
      unfold create_pool_reserves_address, create_protocol_fee_accumulator_address. rewrite Cr, Cf. planned. cbn [of_option bind]. rewrite (pos_u32 _ H3). planned.
      reflexivity.
    + sign.
    + cbn [ix_wfb]; apply pos_u32; assumption.
    + unfold reserves_key, accumulator_key. rewrite Fr, Ff. give.
  - (* calculator *)
    destruct (C39_listed_accounts_exist D w _ ls HD HR H2 (nth_error_In _ _ (nth_here before after ls)))
      as (Tp & Mm & r & f & tr & tf & Fr & Cr & Ff & Cf & Hr & _ & Or & Pr & Hf & _ & Of & Pf & Hrf).
    eapply go with (w1 := w) (create := None) (metas := [sg (admin ps); ro (ls_mint ls); wr POOL_STATE_ID; ro r; wr LST_STATE_LIST_ID; ro calc] ++ map ro suffix);
      [exact HD|exact HR| | |reflexivity| |eapply may_set_calculator; eauto|].
    + planned. destruct (w_mint w (ls_mint ls)); [|congruence]. planned. unfold client_set_sol_value_calculator. planned.
      unfold create_pool_reserves_address. rewrite Cr. cbn [of_option bind]. planned. unfold extend_with_calc, len. cbn [length].
      rewrite map_length, (proj2 (Z.leb_le _ _)) by (unfold U8_MAX; lia). planned. reflexivity.
    + unfold signed. cbn [built ti_accs app forallb existsb is_signer mk ro wr sg]. rewrite !Z.eqb_refl, !orb_true_r. cbn [negb orb andb].
      rewrite !andb_true_r, ?orb_true_r, ?andb_true_r. apply forallb_forall. intros x Hx. apply in_map_iff in Hx as (k & <- & _). reflexivity.
    + cbn [ix_wfb]. apply pos_u32. assumption.
    + exists [sg (admin ps); ro (ls_mint ls); wr POOL_STATE_ID; ro r; wr LST_STATE_LIST_ID; ro calc]. split; [reflexivity|].
      unfold reserves_key. rewrite Fr.
      repeat (apply Forall2_cons || apply Forall2_nil); (split; [cbn; reflexivity|split; cbn; intros; (reflexivity || discriminate)]).
  - (* withdraw to an existing account *)
    set (a := match amount with Some x => x | None => ta_amount tf end) in *.
    set (to := match to_arg with Some k => k | None => fst (d_find D (protocol_fee_beneficiary ps) (w_owner w (ta_mint t)) (ta_mint t)) end) in *.
    assert (Ha : U64 a).
    { destruct (reachable_inv D HD w HR) as ((l & au & _ & _ & _ & _ & _ & (U1 & _) & _) & _). unfold a. destruct amount as [x|]; [apply Ht; reflexivity|].
      exact (U1 _ _ H9). }
    eapply go with (w1 := w) (create := None); [exact HD|exact HR| | |reflexivity| |eapply may_withdraw; [exact H|exact H1|exact H3|symmetry; exact H5|rewrite H5; exact H6|exact H7|reflexivity|exact H9|exact H11|exact H12]|].
    + planned. fold to. unfold accumulator_key in H9. unfold token_account_balance, find_protocol_fee_accumulator_address. rewrite H9. planned. cbn [of_option bind].
      unfold acc_exists. rewrite H3. planned. fold a. reflexivity.
    + unfold withdraw_metas. sign.
    + cbn [ix_wfb]. unfold u64b. rewrite andb_true_iff, !Z.leb_le. exact Ha.
    + unfold withdraw_metas. rewrite H5. give.
  - (* withdraw to a new account *)
    set (a := match amount with Some x => x | None => ta_amount tf end) in *.
    set (to := fst (d_find D (protocol_fee_beneficiary ps) (w_owner w m) m)) in *.
    set (auth := protocol_fee_beneficiary ps) in *.
    assert (Ha : U64 a).
    { destruct (reachable_inv D HD w HR) as ((l & au & _ & _ & _ & _ & _ & (U1 & _) & _) & _). unfold a. destruct amount as [x|]; [apply Ht; reflexivity|].
      exact (U1 _ _ H9). }
    set (w1 := put_owner (put_tok w to (Some (mkTok m auth 0))) to (w_owner w m)).
    assert (Hcr : create_ata_account w to auth m (w_owner w m) = Ok w1).
    { unfold create_ata_account. rewrite (proj2 (token_prog_cases _) H6). cbn [guard]. rewrite H4, H7, Z.eqb_refl. reflexivity. }
    destruct (create_reach D w to auth m _ w1 HD HR eq_refl H5 Hcr) as (R1 & _ & _ & _ & _ & _ & _).
    assert (Hne : m <> to) by congruence.
    assert (Hfn : accumulator_key D w m <> to) by congruence.
    assert (Ho1 : w_owner w1 m = w_owner w m) by (unfold w1; cbn [w_owner put_owner]; now rewrite upd_other).
    assert (Hk1 : accumulator_key D w1 m = accumulator_key D w m) by (unfold accumulator_key; now rewrite Ho1).
    assert (Ht1 : w_tok w1 to = Some (mkTok m auth 0)) by (unfold w1; cbn [w_tok put_owner put_tok]; now rewrite upd_same).
    assert (Ht2 : w_owner w1 to = w_owner w m) by (unfold w1; cbn [w_owner put_owner put_tok]; now rewrite upd_same).
    assert (Hf1 : w_tok w1 (accumulator_key D w m) = Some tf) by (unfold w1; cbn [w_tok put_owner put_tok]; now rewrite upd_other).
    pose proof (may_withdraw D E w1 ps to (mkTok m auth 0) (accumulator_key D w m) tf mi a [] H H1 Ht1) as Rr. cbn [ta_mint ta_owner ta_amount] in Rr.
    rewrite Ho1, Ht2, Hk1 in Rr. specialize (Rr eq_refl H6 H7 eq_refl Hf1 H11).
    rewrite (proj2 (Z.eqb_neq _ _) Hfn) in Rr. rewrite Z.add_0_l in Rr.
    specialize (Rr (or_intror (proj2 Ha))).
    assert (Htoa : match to_arg with Some k => k | None => to end = to) by (destruct H3 as [->| ->]; reflexivity).
    assert (Hpl : plan D w payer auth (CWithdrawFees m (w_owner w m) to_arg amount) =
      Ok (Some (to, auth, m, w_owner w m), built (withdraw_metas ps to (accumulator_key D w m) (w_owner w m) m) (WithdrawProtocolFees a))).
    { planned. fold to. rewrite Htoa. unfold accumulator_key in H9. unfold token_account_balance, find_protocol_fee_accumulator_address. rewrite H9. planned. cbn [of_option bind].
      fold auth. planned. unfold acc_exists. rewrite H4, H5. planned. reflexivity. }
    destruct (go D HD E C w payer auth w1 _ _ _ _
      [signs auth; writes to; writes (accumulator_key D w m); writes PROTOCOL_FEE_ID; reads (w_owner w m); writes POOL_STATE_ID; reads m] [] (mkChange None None None
         [(accumulator_key D w m, Some (mkTok m PROTOCOL_FEE_ID (ta_amount tf - a))); (to, Some (mkTok m auth a))] [] []) R1 Hpl)
      as (w' & Hc & Ap).
    + unfold withdraw_metas. fold auth. sign.
    + exact Hcr.
    + cbn [ix_wfb]. unfold u64b. rewrite andb_true_iff, !Z.leb_le. exact Ha.
    + exact Rr.
    + unfold withdraw_metas. fold auth. give.
    + exists w'. split; [exact Hc|]. destruct Ap as [A1 A2 A3 A4 A5 A6 A7 A8 A9 A10 A11]. cbn [ch_pool ch_list ch_auth ch_tok ch_mint ch_owner] in *.
      constructor; cbn [ch_pool ch_list ch_auth ch_tok ch_mint ch_owner]; try assumption.
      * intros k. rewrite A7. unfold over. cbn [find fst snd]. destruct (accumulator_key D w m =? k); [reflexivity|].
        destruct (Z.eqb_spec to k); [reflexivity|]. unfold w1. cbn [w_tok put_owner put_tok]. now rewrite upd_other by congruence.
      * intros k. rewrite A9. unfold over. cbn [find fst snd]. destruct (Z.eqb_spec to k) as [<-|]; [exact Ht2|].
        unfold w1. cbn [w_owner put_owner put_tok]. now rewrite upd_other by congruence.
Qed.

(* ------------------------------------------------------------------ *)
(** * What goes through is permitted *)

Lemma came D E C w payer auth c w' : command D E C w payer auth c = Ok w' ->
  exists create t w1, plan D w payer auth c = Ok (create, t) /\ signed payer auth t = true /\
    match create with Some (ata, wl, m, tp) => create_ata_account w ata wl m tp | None => Ok w end = Ok w1 /\
    run D E C w1 t = Ok w'.
Proof.
  intros H. unfold command in H. apply bind_ok in H as ((create & t) & Hp & H). apply guard_ok in H as (Hs & H).
  apply bind_ok in H as (w1 & H1 & H). eauto 8.
Qed.
Lemma back D E C w1 metas ix w' : derive_ok D -> reachable D w1 -> run D E C w1 (built metas ix) = Ok w' ->
  ix_wfb ix = true -> is_admin_ix ix = true ->
  exists asked more ch, admin_rule D E w1 ix asked more ch /\ passes metas asked more /\ applied w1 ch w'.
Proof.
  intros HD HR H Hwf Ha. rewrite run_built in H by exact Hwf. eapply C48_only_permitted; eauto.
Qed.
Lemma pool_is w ps : try_pool_state w POOL_STATE_ID = Ok ps -> the_pool w = Some ps.
Proof. unfold try_pool_state, the_pool. apply of_option_ok. Qed.
Lemma list_is w l : try_lst_state_list w LST_STATE_LIST_ID = Ok l -> the_list w = Some l.
Proof. unfold try_lst_state_list, the_list. apply of_option_ok. Qed.
Lemma auth_is w l : try_disable_pool_authority_list w DISABLE_POOL_AUTHORITY_LIST_ID = Ok l -> the_authorities w = Some l.
Proof. unfold try_disable_pool_authority_list, the_authorities. apply of_option_ok. Qed.
Lemma verified a b u : cli_verify a b = Ok u -> b = a.
Proof. unfold cli_verify. intros H. apply guard_ok in H as (H & _). now apply Z.eqb_eq. Qed.
Lemma u32_is i j : index_to_u32 i = Ok j -> j = i /\ u32b i = true.
Proof. unfold index_to_u32. intros H. apply guard_ok in H as (H & [= <-]). auto. Qed.
Lemma u32_pos n : u32b (Z.of_nat n) = true -> reachable_position n.
Proof. unfold u32b, reachable_position. rewrite andb_true_iff, !Z.leb_le. tauto. Qed.
Lemma signed_auth payer auth t k : signed payer auth t = true -> In (sg k) (ti_accs t) ->
  (forall m, In m (ti_accs t) -> is_signer m = true -> mk m = k) -> auth = k.
Proof.
  unfold signed. rewrite andb_true_iff, orb_true_iff, forallb_forall, existsb_exists. intros (Hf & Hx) Hin Hu.
  destruct Hx as [Hx|(m & Hm & Hx)].
  - apply Z.eqb_eq in Hx. specialize (Hf _ Hin). cbn in Hf. apply orb_true_iff in Hf. rewrite !Z.eqb_eq in Hf. destruct Hf; congruence.
  - apply andb_true_iff in Hx as (Hx & Hk). apply Z.eqb_eq in Hk. rewrite <- Hk. symmetry. rewrite (Hu m Hm Hx). reflexivity.
Qed.

Ltac unplan H := repeat match type of H with
  | bind _ _ = Ok _ => let a := fresh "a" in let Ha := fresh "Ha" in apply bind_ok in H as (a & Ha & H)
  | guard _ _ _ = Ok _ => let Hg := fresh "Hg" in apply guard_ok in H as (Hg & H)
  end.
Ltac facts := repeat match goal with
  | H : try_pool_state _ POOL_STATE_ID = Ok _ |- _ => apply pool_is in H
  | H : try_lst_state_list _ LST_STATE_LIST_ID = Ok _ |- _ => apply list_is in H
  | H : try_disable_pool_authority_list _ DISABLE_POOL_AUTHORITY_LIST_ID = Ok _ |- _ => apply auth_is in H
  | H : cli_verify _ _ = Ok _ |- _ => apply verified in H
  | H : index_to_u32 _ = Ok _ |- _ => apply u32_is in H as (-> & H)
  | H : the_pool ?w = Some ?a, H' : the_pool ?w = Some ?b |- _ => rewrite H in H'; injection H' as <-
  end.
Ltac took P := let used := fresh "used" in let Eq := fresh "Eq" in let F := fresh "F" in
  destruct P as (used & Eq & F);
  repeat match goal with
  | H : Forall2 meets _ (_ :: _) |- _ => inversion H; clear H; subst
  | H : Forall2 meets _ [] |- _ => inversion H; clear H; subst
  end; keep; cbn [app] in Eq; injection Eq; clear Eq; intros; subst; cbn [mk ro wr sg sgw is_signer is_writable] in *; subst.

Lemma first_only k l n : find_key k l = Some n -> ~ In k (firstn n l).
Proof.
  revert n. induction l as [|x t IH]; cbn [find_key]; intros n H; [discriminate|]. destruct (Z.eqb_spec x k).
  - injection H as <-. cbn. tauto.
  - destruct (find_key k t) as [m|]; [|discriminate]. injection H as <-. cbn [firstn In]. intros [?|Hin]; [congruence|]. now apply (IH m eq_refl).
Qed.
Lemma firstn_here {A} (a b : list A) : firstn (length a) (a ++ b) = a.
Proof. rewrite firstn_app, Nat.sub_diag, firstn_all. cbn. apply app_nil_r. Qed.

Lemma withdraw_passed D E w ps to f tp m a asked more ch :
  admin_rule D E w (WithdrawProtocolFees a) asked more ch -> passes (withdraw_metas ps to f tp m) asked more -> the_pool w = Some ps ->
  exists t tf mi, running ps /\ w_tok w to = Some t /\ ta_mint t = m /\ w_owner w m = tp /\ w_owner w to = tp /\
    (tp = SPL_TOKEN_ID \/ tp = SPL_TOKEN_2022_ID) /\ w_mint w m = Some mi /\ f = accumulator_key D w m /\ w_tok w f = Some tf /\
    a <= ta_amount tf /\ (f = to \/ ta_amount t + a <= U64_MAX) /\
    ch = mkChange None None None
         (if f =? to then [] else [(f, Some (mkTok m PROTOCOL_FEE_ID (ta_amount tf - a))); (to, Some (mkTok m (ta_owner t) (ta_amount t + a)))]) [] [].
Proof.
  intros R P Hp. unfold withdraw_metas in P. inversion R. subst more0 amount ch asked. rewrite Hp in *.
  match goal with X : Some ps = Some _ |- _ => injection X as <- end. destruct P as (used & Eq & F).
  repeat match goal with
  | H : Forall2 meets _ (_ :: _) |- _ => inversion H; clear H; subst
  | H : Forall2 meets _ [] |- _ => inversion H; clear H; subst end. keep. cbn [app] in Eq. injection Eq; clear Eq; intros; subst; cbn [mk ro wr sg] in *.
  repeat match goal with X : ?y = ?x |- _ => is_var x; subst x end.
  assert (Ef : f = accumulator_key D w (ta_mint t)) by congruence. assert (Em : m = ta_mint t) by congruence. rewrite Ef, Em.
  assert (Hrun : running ps) by assumption.
  exists t, tf, mi. split; [exact Hrun|]. repeat split; auto; try congruence.
Qed.
Ltac by_admin w payer auth Hs := match goal with X : the_pool w = Some ?p |- _ => assert (auth = admin p)
  by (apply (signed_auth payer auth _ _ Hs); [left; reflexivity|];
      let x := fresh in let Hx := fresh "Hx" in let Hsx := fresh "Hsx" in
      intros x Hx Hsx; cbn [built ti_accs In] in Hx; repeat (destruct Hx as [<-|Hx]; [try reflexivity; discriminate Hsx|]); destruct Hx) end.

(** What goes through is permitted by one of the rules, and changed exactly what it says. *)
Theorem C53_only D E C w payer auth c w' : derive_ok D -> reachable D w -> cmd_typed c ->
  command D E C w payer auth c = Ok w' ->
  exists ch, cmd_rule D E w payer auth c ch /\ applied w ch w'.
Proof.
  intros HD HR Ht H. apply came in H as (create & t & w1 & Hp & Hs & Hc & H). destruct c; cbn [plan] in Hp.
  - (* init *) injection Hp as <- <-. injection Hc as <-.
    destruct (back D E C w _ _ w' HD HR H eq_refl eq_refl) as (asked & more & ch & R & P & A).
    inversion R; subst. took P. eexists. split; [|exact A]. eapply does_init; eauto.
  - (* set admin *) unfold client_set_admin in Hp. unplan Hp. injection Hp as <- <-. unplan Ha1. injection Ha1 as <-. facts. injection Hc as <-.
    destruct (back D E C w _ _ w' HD HR H eq_refl eq_refl) as (asked & more & ch & R & P & A).
    inversion R; subst. facts. took P. eexists. split; [|exact A]. eapply does_set_admin; eauto.
  - (* fee *) unfold client_set_protocol_fee in Hp. unplan Hp. injection Hp as <- <-. unplan Ha1. injection Ha1 as <-. facts. injection Hc as <-.
    assert (Hwf : ix_wfb (SetProtocolFee trading lp) = true).
    { destruct Ht as (Ht1 & Ht2). cbn [ix_wfb]. rewrite (opt16 _ Ht1), (opt16 _ Ht2). reflexivity. }
    destruct (back D E C w _ _ w' HD HR H Hwf eq_refl) as (asked & more & ch & R & P & A).
    inversion R; subst. facts. took P. eexists. split; [|exact A]. eapply does_set_fee; eauto.
  - (* beneficiary *) unfold client_set_protocol_fee_beneficiary in Hp. unplan Hp. injection Hp as <- <-. unplan Ha1. injection Ha1 as <-. facts. injection Hc as <-.
    destruct (back D E C w _ _ w' HD HR H eq_refl eq_refl) as (asked & more & ch & R & P & A).
    inversion R; subst. facts. took P. eexists. split; [|exact A]. eapply does_set_beneficiary; eauto.
  - (* pricing *) unfold client_set_pricing_program in Hp. unplan Hp. injection Hp as <- <-. unplan Ha1. injection Ha1 as <-. facts. injection Hc as <-.
    destruct (back D E C w _ _ w' HD HR H eq_refl eq_refl) as (asked & more & ch & R & P & A).
    inversion R; subst. facts. took P. eexists. split; [|exact A]. eapply does_set_pricing; eauto.
  - (* rebalance authority *) unplan Hp. injection Hp as <- <-. injection Hc as <-. unfold client_set_rebalance_authority in Ha0.
    destruct (Z.eqb_spec (admin a) auth) as [Ea|Ea]; [|destruct (Z.eqb_spec (rebalance_authority a) auth) as [Er|Er]; [|discriminate]];
      unplan Ha0; injection Ha0 as <-; facts;
      destruct (back D E C w _ _ w' HD HR H eq_refl eq_refl) as (asked & more & ch & R & P & A);
      inversion R; subst; facts; took P; (eexists; split; [|exact A]); eapply does_set_rebalance_authority; eauto.
  - (* add authority *) unfold client_add_disable_pool_authority in Hp. unplan Hp. injection Hp as <- <-. unplan Ha1. injection Ha1 as <-. facts. injection Hc as <-.
    destruct (back D E C w _ _ w' HD HR H eq_refl eq_refl) as (asked & more & ch & R & P & A).
    inversion R; subst. facts. took P. eexists. split; [|exact A]. eapply does_add_authority; eauto.
  - (* remove authority *) unfold client_remove_disable_pool_authority in Hp. unplan Hp. injection Hp as <- <-. unplan Ha2. injection Ha2 as <-.
    facts. rewrite Ha0 in Ha3. injection Ha3 as <-. apply of_option_ok in Ha4. injection Hc as <-.
    destruct (back D E C w _ _ w' HD HR H Ha5 eq_refl) as (asked & more & ch & R & P & A).
    inversion R; subst. facts. took P. apply Nat2Z.inj in H3. subst a4. rewrite Ha0 in H2. injection H2 as ->.
    eexists. split; [|exact A]. eapply does_remove_authority; eauto using u32_pos.
    apply first_only in Ha4. rewrite firstn_here in Ha4. exact Ha4.
  - (* disable *) unplan Hp. injection Hp as <- <-. injection Hc as <-. facts.
    destruct (back D E C w _ _ w' HD HR H eq_refl eq_refl) as (asked & more & ch & R & P & A).
    inversion R; subst. facts. took P. eexists. split; [|exact A]. eapply does_disable; eauto.
  - (* enable *) unfold client_enable_pool in Hp. unplan Hp. injection Hp as <- <-. unplan Ha1. injection Ha1 as <-. facts. injection Hc as <-.
    destruct (back D E C w _ _ w' HD HR H eq_refl eq_refl) as (asked & more & ch & R & P & A).
    inversion R; subst. facts. took P. eexists. split; [|exact A]. eapply does_enable; eauto.
  - (* disable input *) unfold client_disable_lst_input, client_set_lst_input in Hp. unplan Hp. injection Hp as <- <-. unplan Ha1.
    match goal with a : Z * LstState |- _ => destruct a as (i & ls) end. unplan Ha1. injection Ha1 as <-. facts. injection Hc as <-.
    match goal with X : u32b _ = true |- _ => destruct (back D E C w _ _ w' HD HR H X eq_refl) as (asked & more & ch & R & P & A) end.
    match goal with X : try_find_lst_mint_on_list _ _ = Ok _ |- _ => apply find_lst_spec in X as (_ & _ & Hm) end.
    inversion R; subst. facts. took P. eexists. split; [|exact A].
    match goal with X : ls_mint ls = _ |- _ => rewrite X end. eapply does_disable_input; eauto using u32_pos.
  - (* enable input *) unfold client_enable_lst_input, client_set_lst_input in Hp. unplan Hp. injection Hp as <- <-. unplan Ha.
    match goal with a : Z * LstState |- _ => destruct a as (i & ls) end. unplan Ha. injection Ha as <-. facts. injection Hc as <-.
    match goal with X : u32b _ = true |- _ => destruct (back D E C w _ _ w' HD HR H X eq_refl) as (asked & more & ch & R & P & A) end.
    match goal with X : try_find_lst_mint_on_list _ _ = Ok _ |- _ => apply find_lst_spec in X as (_ & _ & Hm) end.
    inversion R; subst. facts.
    by_admin w payer auth Hs.
    took P. eexists. split; [|exact A].
    match goal with X : ls_mint ls = _ |- _ => rewrite X end. eapply does_enable_input; eauto using u32_pos.
  - (* add LST *) unfold client_add_lst in Hp. unplan Hp. injection Hp as <- <-. unplan Ha2. injection Ha2 as <-. facts. injection Hc as <-.
    destruct (back D E C w _ _ w' HD HR H eq_refl eq_refl) as (asked & more & ch & R & P & A).
    inversion R; subst. facts. took P. eexists. split; [|exact A]. eapply does_add_lst; eauto.
  - (* remove LST *) unfold client_remove_lst in Hp. unplan Hp. injection Hp as <- <-. unplan Ha0. 
    match goal with a : Z * LstState |- _ => destruct a as (i & ls) end. unplan Ha0. injection Ha0 as <-. facts. injection Hc as <-.
    match goal with X : u32b _ = true |- _ => destruct (back D E C w _ _ w' HD HR H X eq_refl) as (asked & more & ch & R & P & A) end.
    inversion R; subst. facts.
    by_admin w payer auth Hs.
    took P. eexists. split; [|exact A].
    eapply does_remove_lst; eauto using u32_pos.
  - (* calculator *) unfold client_set_sol_value_calculator, extend_with_calc in Hp. unplan Hp. injection Hp as <- <-. unplan Ha2.
    match goal with a : Z * LstState |- _ => destruct a as (i & ls) end. unplan Ha2. 
    match goal with a : list Meta * Z |- _ => destruct a as (g & n) end. unplan Ha2. injection Ha2 as <-. 
    match goal with X : guard _ _ _ = Ok (g, n) |- _ => unplan X; injection X as <- _ end. facts. injection Hc as <-.
    match goal with X : u32b _ = true |- _ => destruct (back D E C w _ _ w' HD HR H X eq_refl) as (asked & more & ch & R & P & A) end.
    match goal with X : try_find_lst_mint_on_list _ _ = Ok _ |- _ => apply find_lst_spec in X as (_ & _ & Hm) end.
    inversion R; subst. facts. cbn [skipn app] in P. took P. eexists. split; [|exact A].
    match goal with X : ls_mint ls = _ |- _ => rewrite X end. eapply does_set_calculator; eauto using u32_pos.
    match goal with X : (len _ <=? U8_MAX) = true |- _ => apply Z.leb_le in X; unfold len, U8_MAX in X; cbn [length] in X; rewrite map_length in X; lia end.
  - (* withdraw *)
    set (to := match withdraw_to with Some k => k | None => fst (d_find D auth token_program mint) end) in *.
    apply bind_ok in Hp as (ps & Hps & Hp). apply bind_ok in Hp as (bal & Hbal & Hp). apply bind_ok in Hp as (u & Hv & Hp).
    apply bind_ok in Hp as (cr & Hcr & Hp). injection Hp as <- <-. facts. unfold token_account_balance, find_protocol_fee_accumulator_address in *.
    set (f := fst (d_find D PROTOCOL_FEE_ID token_program mint)) in *.
    apply bind_ok in Hbal as (tf & Hf & [= <-]). apply of_option_ok in Hf.
    set (a := match amount with Some x => x | None => ta_amount tf end) in *.
    assert (Ha : U64 a).
    { destruct (reachable_inv D HD w HR) as ((l & au & _ & _ & _ & _ & _ & (U1 & _) & _) & _). unfold a. destruct amount as [x|]; [apply Ht; reflexivity|].
      exact (U1 _ _ Hf). }
    assert (Hwf : ix_wfb (WithdrawProtocolFees a) = true) by (cbn [ix_wfb]; unfold u64b; rewrite andb_true_iff, !Z.leb_le; exact Ha).
    unfold acc_exists in Hcr. destruct (w_tok w to) as [tt|] eqn:Tt.
    + injection Hcr as <-. injection Hc as <-. unfold withdraw_metas in *.
      destruct (back D E C w _ _ w' HD HR H Hwf eq_refl) as (asked & more & ch & R & P & A).
      destruct (withdraw_passed _ _ _ _ _ _ _ _ _ _ _ _ R P Hps) as (t & tf' & mi & Hrun & Ht' & Htm & Hom & Hot & Hpr & Hmi & Hfk & Htf & Hle & Hov & ->).
      eexists. split; [|exact A]. subst token_program. rewrite Hf in Htf. injection Htf as <-. eapply does_withdraw; eauto.
    + destruct (w_mint w to) eqn:Mt.
      * (* an existing account that is no token account *) injection Hcr as <-. injection Hc as <-. exfalso.
        destruct (back D E C w _ _ w' HD HR H Hwf eq_refl) as (asked & more & ch & R & P & A).
        destruct (withdraw_passed _ _ _ _ _ _ _ _ _ _ _ _ R P Hps) as (t & tf' & mi & Hrun & Ht' & _). congruence.
      * assert (Hto : to = fst (d_find D auth token_program mint) /\ cr = Some (to, auth, mint, token_program)).
        { destruct (Z.eqb_spec to (fst (d_find D auth token_program mint))) as [->|]; [|discriminate]. injection Hcr as <-. auto. }
        destruct Hto as (Hto & ->). destruct (create_reach D w to auth mint _ w1 HD HR Hto Mt Hc) as (R1 & X & Ew1 & _ & Hom & Htp & _).
        destruct (back D E C w1 _ _ w' HD R1 H Hwf eq_refl) as (asked & more & ch & R & P & A).
        assert (Hps1 : the_pool w1 = Some ps) by (rewrite (x_pool _ _ _ X); exact Hps).
        destruct (withdraw_passed _ _ _ _ _ _ _ _ _ _ _ _ R P Hps1) as (t & tf' & mi & Hrun & Ht' & Htm & Hom1 & Hot & Hpr & Hmi & Hfk & Htf & Hle & Hov & ->).
        subst token_program. assert (Hne : f <> to) by congruence. assert (Hnm : mint <> to) by (rewrite Ew1 in Hmi; cbn in Hmi; congruence).
        assert (t = mkTok mint auth 0) as -> by (rewrite Ew1 in Ht'; cbn [w_tok put_owner put_tok] in Ht'; rewrite upd_same in Ht'; congruence).
        assert (tf' = tf) as -> by (rewrite Ew1 in Htf; cbn [w_tok put_owner put_tok] in Htf; rewrite upd_other in Htf by exact Hne; congruence).
        rewrite (proj2 (Z.eqb_neq _ _) Hne) in A. cbn [ta_owner ta_amount] in A. rewrite Z.add_0_l in A.
        exists (mkChange None None None [(f, Some (mkTok mint PROTOCOL_FEE_ID (ta_amount tf - a))); (to, Some (mkTok mint auth a))] []
          [(to, w_owner w mint)]).
        split.
        { eapply does_withdraw_new; eauto.
          - unfold to. destruct withdraw_to; auto. 
          - rewrite Ew1 in Hmi. exact Hmi. }
        destruct A as [A1 A2 A3 A4 A5 A6 A7 A8 A9 A10 A11]. cbn [ch_pool ch_list ch_auth ch_tok ch_mint ch_owner] in *. rewrite Ew1 in *.
        constructor; cbn [ch_pool ch_list ch_auth ch_tok ch_mint ch_owner]; try assumption.
        -- intros k. rewrite A7. unfold over. cbn [find fst snd]. destruct (f =? k); [reflexivity|].
           destruct (Z.eqb_spec to k); [reflexivity|]. cbn [w_tok put_owner put_tok]. now rewrite upd_other by congruence.
        -- intros k. rewrite A9. unfold over. cbn [find fst snd w_owner put_owner put_tok]. destruct (Z.eqb_spec to k) as [<-|]; [now rewrite upd_same|].
           now rewrite upd_other by congruence.
Qed.
