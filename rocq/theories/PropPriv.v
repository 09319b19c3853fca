(** C59: clients ask for exactly the privileges the programs demand. *)
From Coq Require Import ZArith List Bool Lia.
From Verif Require Import Base Ratio Calc State Controller Inversion ProcInv Spec CalcProofs InvProofs TokProofs
  AccessProofs ShapeProofs MoneyProofs Concrete ConcreteReach PropState PropAccess Serde SerdeProofs Client ClientSpec ClientProofs PropClient AdminSpec PropAdmin
  PropMoney TradeSpec PropTrade CliAdmin CliAdminSpec PropCliAdmin LateSpec PropLate Periph PeriphSpec PeriphCli PrivSpec
  Deploy Known Jup JupMeta Cli CliSync PropMeta.
Import ListNotations.
Open Scope Z_scope.

(* ------------------------------------------------------------------ *)
(** * What the program demands *)

Definition flags (a : Ask) : bool * bool := (ask_signs a, ask_writes a).
Lemma admin_flags D E w ix asked more ch : admin_rule D E w ix asked more ch -> exists rest, map flags asked = privileges ix ++ rest.
Proof. intros R. destruct R; solve [exists []; reflexivity|eexists; reflexivity]. Qed.
Lemma trade_flags D E C w ix asked more w' : trade_rule D E C w ix asked more w' -> exists rest, map flags asked = privileges ix ++ rest.
Proof. intros R. destruct R; exists []; reflexivity. Qed.
Lemma passes_has accs asked more fs rest : passes accs asked more -> map flags asked = fs ++ rest ->
  Forall2 has (firstn (length fs) accs) fs.
Proof.
  intros (used & -> & F). revert fs. induction F as [|m a ms asx (K & Hs & Hw) F IH]; intros fs Hf.
  - destruct fs; [constructor|discriminate Hf].
  - destruct fs as [|f fs]; [constructor|]. cbn [map app] in Hf. injection Hf as <- Hf. cbn [length firstn app].
    constructor; [split; assumption|]. apply IH, Hf.
Qed.

(** Whatever the program carries out, in any state, was passed at least these privileges. *)
Theorem C59_demanded D (HD : derive_ok D) E C w accs ix w' : reachable D w -> process D E C w accs ix = Ok w' ->
  Forall2 has (firstn (length (privileges ix)) accs) (privileges ix).
Proof.
  intros HR H. destruct (is_admin_ix ix) eqn:Ha.
  - destruct (C48_only_permitted D HD E C w HR ix accs w' Ha H) as (asked & more & ch & R & P & _).
    destruct (admin_flags _ _ _ _ _ _ _ R) as (rest & F). eapply passes_has; eauto.
  - assert (Ht : is_trade_ix ix = true) by (unfold is_trade_ix; rewrite Ha; reflexivity).
    destruct (C49_only_permitted D HD E C w HR ix accs w' Ht H) as (asked & more & R & P).
    destruct (trade_flags _ _ _ _ _ _ _ _ R) as (rest & F). eapply passes_has; eauto.
Qed.

(* ------------------------------------------------------------------ *)
(** * What the clients ask for *)

Lemma in_skipn {A} n (l : list A) x : In x (skipn n l) -> In x l.
Proof. intros H. rewrite <- (firstn_skipn n l), in_app_iff. auto. Qed.

(** An instruction for the program, in shape: the fixed accounts with the privileges documented, then accounts that are
    either only read or the caller's own. *)
Definition proper (t : TopIx) (ix : Ix) (own : list Meta) : Prop :=
  ix_wfb ix = true /\ exists metas, t = built metas ix /\ map lent (firstn (length (privileges ix)) metas) = privileges ix /\
    forall m, In m (skipn (length (privileges ix)) metas) -> lent m = R_ \/ In m own.
Lemma proper_of t ix own fixed more : t = built (fixed ++ more) ix -> ix_wfb ix = true -> map lent fixed = privileges ix ->
  (forall m, In m more -> lent m = R_ \/ In m own) -> proper t ix own.
Proof.
  intros -> Hwf Hf Hm. split; [exact Hwf|]. exists (fixed ++ more). split; [reflexivity|].
  assert (L : length (privileges ix) = length fixed) by (rewrite <- Hf; apply map_length).
  rewrite L, firstn_app, Nat.sub_diag, firstn_all, skipn_app, Nat.sub_diag, skipn_all. cbn [firstn skipn app]. rewrite app_nil_r. auto.
Qed.
Lemma proper_cons t ix own metas : t = built metas ix -> ix_wfb ix = true ->
  map lent (firstn (length (privileges ix)) metas) = privileges ix ->
  (forall m, In m (skipn (length (privileges ix)) metas) -> lent m = R_ \/ In m own) -> proper t ix own.
Proof. intros -> Hwf Hf Hm. split; [exact Hwf|]. eauto. Qed.
Lemma proper_all t ix own fixed : t = built fixed ix -> ix_wfb ix = true -> map lent fixed = privileges ix -> proper t ix own.
Proof. intros -> Hwf Hf. eapply (proper_of _ _ _ fixed []); [rewrite app_nil_r; reflexivity|exact Hwf|exact Hf|intros m []]. Qed.

Lemma in_calc accs prog g n m : extend_with_calc accs prog = Ok (g, n) -> In m g -> lent m = R_ \/ In m accs.
Proof.
  unfold extend_with_calc. intros H Hm. apply guard_ok in H as (_ & [= <- <-]). destruct Hm as [<-|Hm]; [left; reflexivity|].
  right. exact (in_skipn 1 accs m Hm).
Qed.
Lemma calc_n accs prog g n : extend_with_calc accs prog = Ok (g, n) -> u8b n = true.
Proof. unfold extend_with_calc. intros H. apply guard_ok in H as (L & [= <- <-]). exact (u8_of _ L). Qed.
Lemma in_price accs prog g m : extend_with_price_swap accs prog = Ok g -> In m g -> lent m = R_ \/ In m accs.
Proof.
  unfold extend_with_price_swap. intros H Hm. apply guard_ok in H as (_ & [= <-]). destruct Hm as [<-|Hm]; [left; reflexivity|].
  right. exact (in_skipn 2 accs m Hm).
Qed.
Lemma in_two a b p g n n' m : extend_with_src_dst a b p = Ok (g, (n, n')) -> In m g -> lent m = R_ \/ In m (a ++ b).
Proof.
  unfold extend_with_src_dst. intros H Hm. apply bind_ok in H as ((g1 & n1) & H1 & H). apply bind_ok in H as ((g2 & n2) & H2 & H).
  injection H as <- <- <-. rewrite in_app_iff in *. destruct Hm as [Hm|Hm]; [destruct (in_calc _ _ _ _ _ H1 Hm)|destruct (in_calc _ _ _ _ _ H2 Hm)]; auto.
Qed.
Lemma two_n a b p g n n' : extend_with_src_dst a b p = Ok (g, (n, n')) -> u8b n = true /\ u8b n' = true.
Proof.
  unfold extend_with_src_dst. intros H. apply bind_ok in H as ((g1 & n1) & H1 & H). apply bind_ok in H as ((g2 & n2) & H2 & H).
  injection H as <- <- <-. split; eapply calc_n; eauto.
Qed.

Lemma swap_keys_flags D V s sa da sm dm keys ij p : client_swap_keys D V s sa da sm dm LST_STATE_LIST_ID = Ok (keys, ij, p) ->
  map lent keys = [S_; R_; R_; W_; W_; W_; R_; R_; W_; W_; W_; W_].
Proof.
  unfold client_swap_keys. intros H. unplan H. destruct a0 as (i & src). unplan H. destruct a1 as (j & dst). unplan H. injection H as <- _ _. reflexivity.
Qed.

Lemma built_properly D V q t : request_typed q -> build D V q = Ok t -> exists ix, proper t ix (supplied q).
Proof.
  intros Ht B. destruct q; cbn [build supplied request_typed] in *.
  - unfold client_sync in B. unplan B. destruct a0 as (i & ls). unplan B. destruct a2 as (g & n). injection B as <-.
    apply u32_is in Ha2 as (-> & Hu). eexists. eapply proper_cons; [reflexivity|exact Hu|reflexivity|]. intros m Hm. cbn [privileges length skipn] in Hm. eapply in_calc; eauto.
  - destruct Ht as (U1 & U2). unfold client_swap_exact_in in B. apply bind_ok in B as (((keys & (i & j)) & pr) & Hk & B). unplan B.
    destruct a1 as (g & (ns & nd)). unplan B. injection B as <-.
    apply u32_is in Ha as (-> & Hi), Ha0 as (-> & Hj). destruct (two_n _ _ _ _ _ _ Ha1) as (N1 & N2).
    eexists. eapply (proper_of _ _ _ keys (g ++ a1)); [reflexivity| |exact (swap_keys_flags _ _ _ _ _ _ _ _ _ _ Hk)|].
    + cbn [ix_wfb si_src_lst_value_calc_accs si_dst_lst_value_calc_accs si_src_lst_index si_dst_lst_index si_min_amount_out si_amount].
      rewrite N1, N2, Hi, Hj, (u64b_ok _ U1), (u64b_ok _ U2). reflexivity.
    + intros m Hm. apply in_app_iff in Hm as [Hm|Hm]; [destruct (in_two _ _ _ _ _ _ _ Ha1 Hm) as [|X]|destruct (in_price _ _ _ _ Ha2 Hm) as [|X]];
        rewrite ?in_app_iff in *; tauto.
  - destruct Ht as (U1 & U2). unfold client_swap_exact_out in B. apply bind_ok in B as (((keys & (i & j)) & pr) & Hk & B). unplan B.
    destruct a1 as (g & (ns & nd)). unplan B. injection B as <-.
    apply u32_is in Ha as (-> & Hi), Ha0 as (-> & Hj). destruct (two_n _ _ _ _ _ _ Ha1) as (N1 & N2).
    eexists. eapply (proper_of _ _ _ keys (g ++ a1)); [reflexivity| |exact (swap_keys_flags _ _ _ _ _ _ _ _ _ _ Hk)|].
    + cbn [ix_wfb so_src_lst_value_calc_accs so_dst_lst_value_calc_accs so_src_lst_index so_dst_lst_index so_max_amount_in so_amount].
      rewrite N1, N2, Hi, Hj, (u64b_ok _ U1), (u64b_ok _ U2). reflexivity.
    + intros m Hm. apply in_app_iff in Hm as [Hm|Hm]; [destruct (in_two _ _ _ _ _ _ _ Ha1 Hm) as [|X]|destruct (in_price _ _ _ _ Ha2 Hm) as [|X]];
        rewrite ?in_app_iff in *; tauto.
  - destruct Ht as (U1 & U2). unfold client_add_liquidity, client_liquidity in B. unplan B. destruct a0 as (i & ls). unplan B.
    destruct a4 as (g & n). unplan B. destruct a4 as (gp & n'). injection B as <-. apply u32_is in Ha4 as (-> & Hi).
    eexists. eapply proper_cons; [reflexivity| |reflexivity|].
    + cbn [ix_wfb al_lst_value_calc_accs al_lst_index al_lst_amount al_min_lp_out]. rewrite (calc_n _ _ _ _ Ha5), Hi, (u64b_ok _ U1), (u64b_ok _ U2). reflexivity.
    + intros m Hm. change (In m (g ++ gp)) in Hm. rewrite in_app_iff in *. destruct Hm as [Hm|Hm]; [destruct (in_calc _ _ _ _ _ Ha5 Hm)|destruct (in_calc _ _ _ _ _ Ha6 Hm)]; auto.
  - destruct Ht as (U1 & U2). unfold client_remove_liquidity, client_liquidity in B. unplan B. destruct a0 as (i & ls). unplan B.
    destruct a4 as (g & n). unplan B. destruct a4 as (gp & n'). injection B as <-. apply u32_is in Ha4 as (-> & Hi).
    eexists. eapply proper_cons; [reflexivity| |reflexivity|].
    + cbn [ix_wfb rl_lst_value_calc_accs rl_lst_index rl_lp_token_amount rl_min_lst_out]. rewrite (calc_n _ _ _ _ Ha5), Hi, (u64b_ok _ U1), (u64b_ok _ U2). reflexivity.
    + intros m Hm. change (In m (g ++ gp)) in Hm. rewrite in_app_iff in *. destruct Hm as [Hm|Hm]; [destruct (in_calc _ _ _ _ _ Ha5 Hm)|destruct (in_calc _ _ _ _ _ Ha6 Hm)]; auto.
  - unfold client_disable_lst_input, client_set_lst_input in B. unplan B. destruct a0 as (i & ls). unplan B. injection B as <-.
    apply u32_is in Ha2 as (-> & Hu). eexists. eapply proper_all; [reflexivity|exact Hu|reflexivity].
  - unfold client_enable_lst_input, client_set_lst_input in B. unplan B. destruct a0 as (i & ls). unplan B. injection B as <-.
    apply u32_is in Ha2 as (-> & Hu). eexists. eapply proper_all; [reflexivity|exact Hu|reflexivity].
  - unfold client_add_lst in B. unplan B. injection B as <-. eexists. eapply proper_all; reflexivity.
  - unfold client_remove_lst in B. unplan B. destruct a0 as (i & ls). unplan B. injection B as <-.
    eexists. eapply proper_all; [reflexivity|exact Hg|reflexivity].
  - unfold client_set_sol_value_calculator in B. unplan B. destruct a0 as (i & ls). unplan B.
    match goal with a : list Meta * Z |- _ => destruct a as (g & n) end. injection B as <-.
    match goal with X : index_to_u32 _ = _ |- _ => apply u32_is in X as (-> & Hu) end.
    eexists. eapply proper_cons; [reflexivity|exact Hu|reflexivity|]. intros m Hm. cbn [privileges length skipn] in Hm. eapply in_calc; eauto.
  - unfold client_set_admin in B. unplan B. injection B as <-. eexists. eapply proper_all; reflexivity.
  - unfold client_set_protocol_fee in B. unplan B. injection B as <-. destruct Ht as (T1 & T2). eexists. eapply proper_all; [reflexivity| |reflexivity].
    cbn [ix_wfb]. rewrite (opt16 _ T1), (opt16 _ T2). reflexivity.
  - unfold client_set_protocol_fee_beneficiary in B. unplan B. injection B as <-. eexists. eapply proper_all; reflexivity.
  - unfold client_set_pricing_program in B. unplan B. injection B as <-. eexists. eapply proper_all; reflexivity.
  - unfold client_withdraw_protocol_fees in B. unplan B. injection B as <-. eexists. eapply proper_all; [reflexivity|apply u64b_ok, Ht|reflexivity].
  - unfold client_withdraw_protocol_fees_by_mint in B. unplan B. injection B as <-. eexists. eapply proper_all; [reflexivity|apply u64b_ok, Ht|reflexivity].
  - unfold client_add_disable_pool_authority in B. unplan B. injection B as <-. eexists. eapply proper_all; reflexivity.
  - unfold client_remove_disable_pool_authority in B. unplan B. injection B as <-. apply u32_is in Ha1 as (-> & Hu).
    eexists. eapply proper_all; [reflexivity|exact Hu|reflexivity].
  - injection B as <-. eexists. eapply proper_all; reflexivity.
  - unfold client_enable_pool in B. unplan B. injection B as <-. eexists. eapply proper_all; reflexivity.
  - unfold client_set_rebalance_authority in B. unplan B. injection B as <-. eexists. eapply proper_all; reflexivity.
  - injection B as <-. eexists. eapply proper_all; reflexivity.
  - destruct Ht as (U1 & U2 & U3). unfold client_start_rebalance in B. unplan B. destruct a0 as (i & src). unplan B. destruct a1 as (j & dst). unplan B.
    match goal with a : (list Meta * (Z * Z))%type |- _ => destruct a as (g & (ns & nd)) end. injection B as <-.
    repeat match goal with X : index_to_u32 _ = _ |- _ => apply u32_is in X as (-> & ?) end.
    match goal with X : extend_with_src_dst _ _ _ = _ |- _ => rename X into Hx end. destruct (two_n _ _ _ _ _ _ Hx) as (N1 & N2).
    eexists. eapply proper_cons; [reflexivity| |reflexivity|].
    + cbn [ix_wfb sr_src_lst_calc_accs sr_src_lst_index sr_dst_lst_index sr_amount sr_min_starting_src_lst sr_max_starting_dst_lst].
      rewrite N1, (u64b_ok _ U1), (u64b_ok _ U2), (u64b_ok _ U3).
      repeat match goal with X : u32b _ = true |- _ => rewrite X; clear X end. reflexivity.
    + intros m Hm. cbn [privileges length skipn] in Hm. exact (in_two _ _ _ _ _ _ _ Hx Hm).
Qed.

(** Every instruction the library builds is one of the program's, and lends its accounts as documented; those after
    them are only read, or are the caller's own. *)
Theorem C59_as_documented D V q t : request_typed q -> build D V q = Ok t ->
  exists ix, dec_ix (ti_data t) = Some ix /\
    map lent (firstn (length (privileges ix)) (ti_accs t)) = privileges ix /\
    forall m, In m (skipn (length (privileges ix)) (ti_accs t)) -> lent m = R_ \/ In m (supplied q).
Proof.
  intros Ht B. destruct (built_properly D V q t Ht B) as (ix & Hwf & metas & -> & F & M). exists ix.
  split; [apply decode_built, Hwf|]. auto.
Qed.

Lemma lending_nth n p metas m : nth_error metas n = Some m -> nth_error (lending n p metas) n = Some (mkMeta (mk m) (fst p) (snd p)).
Proof.
  revert n. induction metas as [|x l IH]; intros [|n] H; cbn in H; try discriminate.
  - injection H as <-. reflexivity.
  - exact (IH n H).
Qed.
Lemma nth_firstn {A} n k (l : list A) : (n < k)%nat -> nth_error (firstn k l) n = nth_error l n.
Proof. revert k l. induction n as [|n IH]; intros [|k] [|x l] H; cbn; try lia; try reflexivity. apply IH. lia. Qed.
Lemma forall2_nth {A B} (P : A -> B -> Prop) l l' n x : Forall2 P l l' -> nth_error l n = Some x -> exists y, nth_error l' n = Some y /\ P x y.
Proof.
  intros F. revert n. induction F as [|a b l l' H F IH]; intros [|n] Hn; cbn in Hn; try discriminate.
  - injection Hn as <-. exists b. auto.
  - exact (IH n Hn).
Qed.
Lemma skipn_nth {A} n k (l : list A) x : nth_error l n = Some x -> (k <= n)%nat -> In x (skipn k l).
Proof.
  revert n l. induction k as [|k IH]; intros n l H Hk; [eapply nth_error_In; exact H|].
  destruct l as [|y l]; [destruct n; discriminate H|]. destruct n as [|n]; [lia|]. cbn [skipn]. apply (IH n); [exact H|lia].
Qed.

Lemma least D (HD : derive_ok D) t ix own : proper t ix own -> forall n m, nth_error (ti_accs t) n = Some m ->
  In m own \/ forall p E C w w', reachable D w -> lacks p (lent m) -> run D E C w (lending_ix n p t) <> Ok w'.
Proof.
  intros (Hwf & metas & -> & F & M) n m Hn. cbn [ti_accs built] in Hn.
  destruct (Nat.lt_ge_cases n (length (privileges ix))) as [Hlt|Hge].
  - right. intros p E C w w' HR Hl H. unfold lending_ix in H. cbn [ti_prog ti_accs ti_data built] in H.
    change (run D E C w (built (lending n p metas) ix) = Ok w') in H. rewrite run_built in H by exact Hwf.
    pose proof (C59_demanded D HD E C w _ ix w' HR H) as Hd.
    assert (X : nth_error (firstn (length (privileges ix)) (lending n p metas)) n = Some (mkMeta (mk m) (fst p) (snd p))).
    { rewrite nth_firstn by exact Hlt. apply lending_nth, Hn. }
    destruct (forall2_nth _ _ _ _ _ Hd X) as (y & Hy & Hs & Hw). cbn [is_signer is_writable] in Hs, Hw.
    rewrite <- F in Hy. rewrite nth_error_map, nth_firstn, Hn in Hy by exact Hlt. cbn in Hy. injection Hy as <-.
    destruct Hl as [(A & B)|(A & B)]; [specialize (Hs A)|specialize (Hw A)]; congruence.
  - destruct (M m (skipn_nth _ _ _ _ Hn Hge)) as [Hr|Hin]; [right|left; exact Hin].
    intros p E C w w' _ Hl. rewrite Hr in Hl. unfold lacks, R_ in Hl. cbn in Hl. destruct Hl as [(? & _)|(? & _)]; discriminate.
Qed.

(** The library asks for nothing that could be spared: lent any less, any account but the caller's own calculator and
    pricing accounts makes the program refuse the instruction, in every state, with every environment. *)
Theorem C59_nothing_spare D (HD : derive_ok D) V q t : request_typed q -> build D V q = Ok t ->
  forall n m, nth_error (ti_accs t) n = Some m ->
  In m (supplied q) \/ forall p E C w w', reachable D w -> lacks p (lent m) -> run D E C w (lending_ix n p t) <> Ok w'.
Proof. intros Ht B. destruct (built_properly D V q t Ht B) as (ix & P). exact (least D HD t ix _ P). Qed.

(** The end of a rebalancing, built from its start. *)
Lemma end_properly s t : client_end_rebalance s = Ok t -> ti_prog s = S_CONTROLLER_ID -> proper t EndRebalance (ti_accs s).
Proof.
  unfold client_end_rebalance. intros H Hp. apply bind_ok in H as (ix & _ & H). destruct ix; try discriminate H.
  apply bind_ok in H as (sf & Hs & H). unfold slice_from in Hs. apply guard_ok in Hs as (_ & [= <-]).
  destruct (ti_accs s) as [|a1 [|a2 [|a3 [|a4 [|a5 [|a6 [|a7 [|a8 [|a9 [|a10 [|a11 [|a12 more]]]]]]]]]]]] eqn:El; try discriminate H.
  injection H as <-. rewrite Hp. rewrite <- El. eapply proper_cons; [reflexivity|reflexivity|reflexivity|].
  intros m Hm. right. eapply in_skipn. exact Hm.
Qed.
Theorem C59_end_rebalance D (HD : derive_ok D) s t : client_end_rebalance s = Ok t -> ti_prog s = S_CONTROLLER_ID ->
  dec_ix (ti_data t) = Some EndRebalance /\ map lent (firstn 6 (ti_accs t)) = privileges EndRebalance /\
  forall n m, nth_error (ti_accs t) n = Some m ->
  In m (skipn 6 (ti_accs t)) /\ In m (ti_accs s) \/
  forall p E C w w', reachable D w -> lacks p (lent m) -> run D E C w (lending_ix n p t) <> Ok w'.
Proof.
  intros H Hp. pose proof (end_properly s t H Hp) as P. destruct P as (Hwf & metas & -> & F & M) eqn:EP. clear EP.
  split; [apply decode_built, Hwf|]. split; [exact F|]. intros n m Hn.
  destruct (Nat.lt_ge_cases n 6) as [Hlt|Hge].
  - right.
    intros p E C w w' HR Hl H'. unfold lending_ix in H'. change (run D E C w (built (lending n p metas) EndRebalance) = Ok w') in H'.
    rewrite run_built in H' by reflexivity. pose proof (C59_demanded D HD E C w _ _ w' HR H') as Hd.
    change (length (privileges EndRebalance)) with 6%nat in *.
    assert (X : nth_error (firstn 6 (lending n p metas)) n = Some (mkMeta (mk m) (fst p) (snd p))).
    { rewrite nth_firstn by exact Hlt. apply lending_nth, Hn. }
    destruct (forall2_nth _ _ _ _ _ Hd X) as (y & Hy & Hs & Hw). cbn [is_signer is_writable] in Hs, Hw.
    rewrite <- F in Hy. cbn [ti_accs built] in Hn. rewrite nth_error_map, nth_firstn, Hn in Hy by exact Hlt. cbn in Hy. injection Hy as <-.
    destruct Hl as [(A & B)|(A & B)]; [specialize (Hs A)|specialize (Hw A)]; congruence.
  - assert (Hin : In m (skipn 6 metas)) by (eapply skipn_nth; [exact Hn|exact Hge]). destruct (M m Hin) as [Hr|Hi].
    + right. intros p E C w w' _ Hl. rewrite Hr in Hl. unfold lacks, R_ in Hl. cbn in Hl. destruct Hl as [(? & _)|(? & _)]; discriminate.
    + left. split; [exact Hin|exact Hi].
Qed.

(* ------------------------------------------------------------------ *)
(** * Callers whose calculators' and pricing accounts are only read: everything this repository contains *)

Lemma read_repeat l : all_read l -> map lent l = repeat R_ (length l).
Proof. intros H. induction l as [|x l IH]; cbn [map length repeat]; [reflexivity|]. rewrite (H x (or_introl eq_refl)), IH; [reflexivity|]. intros m Hm. apply H. now right. Qed.
Lemma proper_only t ix own : proper t ix own -> all_read own -> asks_only t ix.
Proof.
  intros (Hwf & metas & -> & F & M) Ho. split; [apply decode_built, Hwf|]. cbn [ti_accs built].
  exists (length (skipn (length (privileges ix)) metas)). rewrite <- (firstn_skipn (length (privileges ix)) metas) at 1.
  rewrite map_app, F. f_equal. apply read_repeat. intros m Hm. destruct (M m Hm) as [?|Hi]; auto.
Qed.
Theorem C59_only_documented D V q t : request_typed q -> build D V q = Ok t -> all_read (supplied q) -> exists ix, asks_only t ix.
Proof. intros Ht B Ho. destruct (built_properly D V q t Ht B) as (ix & P). exists ix. eapply proper_only; eauto. Qed.

(** ** The operator's tool *)
Lemma planned_properly D w payer auth c create t : (forall k, U64 (balance w k)) -> cmd_typed c -> plan D w payer auth c = Ok (create, t) ->
  exists ix own, proper t ix own /\ all_read own.
Proof.
  intros Hb Ht H.
  assert (L : forall q, request_typed q -> build D w q = Ok t -> all_read (supplied q) -> exists ix own, proper t ix own /\ all_read own).
  { intros q Hq B Ho. destruct (built_properly D w q t Hq B) as (ix & P). eauto. }
  assert (N : all_read []) by (intros m []).
  destruct c; cbn [plan] in H.
  - injection H as _ <-. exists Initialize, []. split; [|exact N]. eapply proper_all; reflexivity.
  - unplan H. injection H as _ <-. apply (L (QSetAdmin new_admin)); auto.
  - unplan H. injection H as _ <-. apply (L (QSetProtocolFee trading lp)); auto.
  - unplan H. injection H as _ <-. apply (L (QSetBeneficiary new_beneficiary)); auto.
  - unplan H. injection H as _ <-. apply (L (QSetPricing pricing)); auto.
  - unplan H. injection H as _ <-. destruct (admin a =? auth); [|destruct (rebalance_authority a =? auth); [|discriminate]].
    + apply (L (QSetRebalanceAuthority new_authority true)); auto.
    + apply (L (QSetRebalanceAuthority new_authority false)); auto.
  - unplan H. injection H as _ <-. apply (L (QAddAuthority payer new_authority)); auto.
  - unplan H. injection H as _ <-. apply (L (QRemoveAuthority (match refund with Some r => r | None => payer end) auth removing)); auto.
  - unplan H. injection H as _ <-. apply (L (QDisablePool auth)); auto.
  - unplan H. injection H as _ <-. apply (L QEnablePool); auto.
  - unplan H. injection H as _ <-. apply (L (QDisableInput mint)); auto.
  - unplan H. injection H as _ <-. apply (L (QEnableInput mint)); auto.
  - unplan H. injection H as _ <-. apply (L (QAddLst payer calculator mint)); auto.
  - unplan H. injection H as _ <-. apply (L (QRemoveLst (match refund with Some r => r | None => payer end) mint)); auto.
  - unplan H. injection H as _ <-. apply (L (QSetCalculator mint (ro mint :: map ro account_suffix) calculator)); auto.
    cbn [supplied]. intros m [<-|Hm]; [reflexivity|]. apply in_map_iff in Hm as (k & <- & _). reflexivity.
  - unplan H. injection H as _ <-. match goal with X : token_account_balance _ _ = Ok _ |- _ => rename X into Hbal end.
    exists (WithdrawProtocolFees (match amount with Some a => a | None => a0 end)), []. split; [|exact N].
    eapply proper_all; [reflexivity| |reflexivity].
    cbn [ix_wfb]. apply u64b_ok. destruct amount as [x|]; [exact (Ht x eq_refl)|].
    unfold token_account_balance in Hbal. apply bind_ok in Hbal as (tf & Hf & [= <-]). apply of_option_ok in Hf.
    pose proof (Hb (fst (find_protocol_fee_accumulator_address D mint token_program))) as B. unfold balance in B. rewrite Hf in B. exact B.
Qed.
Theorem C59_tool D (HD : derive_ok D) w payer auth c create t : reachable D w -> cmd_typed c -> plan D w payer auth c = Ok (create, t) ->
  (exists ix, asks_only t ix) /\
  forall n m, nth_error (ti_accs t) n = Some m -> forall p E C w1 w', reachable D w1 -> lacks p (lent m) -> run D E C w1 (lending_ix n p t) <> Ok w'.
Proof.
  intros HR Ht H. destruct (planned_properly D w payer auth c create t) as (ix & own & P & Ho); [|exact Ht|exact H|].
  - intros k. destruct (reachable_inv D HD w HR) as ((l & au & _ & _ & _ & _ & _ & (U1 & _) & _) & _). unfold balance.
    destruct (w_tok w k) as [t0|] eqn:T; [exact (U1 _ _ T)|]. vm_compute. split; discriminate.
  - split; [exists ix; eapply proper_only; eauto|]. intros n m Hn p E C w1 w' HR1 Hl. destruct (least D HD t ix own P n m Hn) as [Hi|G].
    + rewrite (Ho m Hi) in Hl. unfold lacks, R_ in Hl. cbn in Hl. destruct Hl as [(? & _)|(? & _)]; discriminate.
    + exact (G p E C w1 w' HR1 Hl).
Qed.

(** ** Rebalancing and syncing from the command line *)
Lemma calc_accounts_read dp s accs : calc_accounts_of dp s = Some accs -> all_read accs.
Proof.
  unfold calc_accounts_of. intros H.
  repeat match type of H with context [match ?x with _ => _ end] => destruct x end; try discriminate H; injection H as <-;
    intros m Hm; cbn in Hm; repeat destruct Hm as [<-|Hm]; try reflexivity; destruct Hm.
Qed.
Lemma wsol_read : all_read [ro WSOL_MINT].
Proof. intros m [<-|[]]. reflexivity. Qed.
Lemma read_app a b : all_read a -> all_read b -> all_read (a ++ b).
Proof. intros Ha Hb m Hm. apply in_app_iff in Hm as [Hm|Hm]; auto. Qed.

Lemma skip_more {A} a b (l : list A) : skipn (a + b) l = skipn a (skipn b l).
Proof.
  rewrite Nat.add_comm. revert l. induction b as [|b IH]; intros [|x l]; cbn [Nat.add skipn]; try reflexivity.
  - now rewrite skipn_nil.
  - apply IH.
Qed.

Lemma rebal_asks D S to src ts dst td amount xs xd t e : U64 amount -> all_read xs -> all_read xd ->
  rebal_ixs D S to src ts dst td amount xs xd = Ok (t, e) -> (exists a, asks_only t (StartRebalance a)) /\ asks_only e EndRebalance.
Proof.
  intros Ha Hs Hd H. unfold rebal_ixs in H. apply bind_ok in H as (t0 & Ht & H). apply bind_ok in H as (e0 & He & H). injection H as -> ->.
  assert (U0 : U64 0) by (vm_compute; split; discriminate). assert (U1 : U64 U64_MAX) by (vm_compute; split; discriminate).
  destruct (built_properly D (cli_view S src ts dst td) (QStartRebalance to src dst amount 0 U64_MAX xs xd) t (conj Ha (conj U0 U1)) Ht) as (ix & P).
  pose proof (proper_only _ _ _ P (read_app _ _ Hs Hd)) as O. pose proof P as (Hwf & metas & Et & F & M).
  assert (Si : exists a, ix = StartRebalance a).
  { destruct O as (Hdec & _). pose proof He as He'. unfold client_end_rebalance in He'. rewrite Hdec in He'. cbn [of_option bind] in He'.
    destruct ix; try discriminate He'. eauto. }
  destruct Si as (a & ->). split; [exists a; exact O|].
  assert (Hp : ti_prog t = S_CONTROLLER_ID) by (rewrite Et; reflexivity).
  unfold client_end_rebalance in He. destruct O as (Hdec & _). rewrite Hdec in He. cbn [of_option bind] in He.
  apply bind_ok in He as (sf & Hsf & He). unfold slice_from in Hsf. apply guard_ok in Hsf as (_ & Hsf).
  assert (Es : sf = skipn (Z.to_nat (12 + sr_src_lst_calc_accs a)) (ti_accs t)) by congruence. rewrite Es in He. clear Hsf Es. rewrite Et in He. cbn [ti_accs ti_prog built] in He.
  change (length (privileges (StartRebalance a))) with 12%nat in *.
  destruct metas as [|a1 [|a2 [|a3 [|a4 [|a5 [|a6 [|a7 [|a8 [|a9 [|a10 [|a11 [|a12 more]]]]]]]]]]]] eqn:El; try discriminate He.
  rewrite <- El in He. match type of He with Ok ?x = Ok _ => assert (Ee : e = x) by congruence end. rewrite Ee. clear He Ee. apply (proper_only _ _ []); [|intros m []]. eapply proper_cons; [reflexivity|reflexivity|reflexivity|].
  change (length (privileges EndRebalance)) with 6%nat. intros m Hm. match type of Hm with In _ (skipn 6 (_ ++ ?l)) => change (In m l) in Hm end. left.
  rewrite El in Hm.
  assert (Hm' : In m (skipn 12 (a1 :: a2 :: a3 :: a4 :: a5 :: a6 :: a7 :: a8 :: a9 :: a10 :: a11 :: a12 :: more))).
  { match type of Hm with In m (skipn ?n _) => assert (Hge : (12 <= n)%nat) end.
    { clear - Hwf. cbn [ix_wfb] in Hwf. rewrite !andb_true_iff in Hwf. destruct Hwf as (((((Hn & _) & _) & _) & _) & _).
      unfold u8b in Hn. apply andb_true_iff in Hn as (Hn & _). apply Z.leb_le in Hn. lia. }
    match type of Hm with In m (skipn ?n _) => replace n with ((n - 12) + 12)%nat in Hm by lia end.
    rewrite skip_more in Hm. eapply in_skipn; exact Hm. }
  cbn [skipn] in Hm'. destruct (M m Hm') as [?|Hi]; [assumption|]. exact (read_app _ _ Hs Hd m Hi).
Qed.
Ltac unbind H := repeat match type of H with
  | bind _ _ = Ok _ => let a := fresh "a" in let Ha := fresh "Ha" in apply bind_ok in H as (a & Ha & H)
  | (let '(_, _) := ?x in _) = Ok _ => destruct x
  | match ?x with (_, _) => _ end = Ok _ => destruct x
  end.
Lemma read_of dp s accs : of_option Panic (calc_accounts_of dp s) = Ok accs -> all_read accs.
Proof. intros H. apply of_option_ok in H. eapply calc_accounts_read; eauto. Qed.

(** The tool's three rebalancing commands. *)
Theorem C59_rebalance R dp D S auth to lst x y avail pl : U64 x ->
  (rebal_sol R dp D S auth to lst x y avail = Ok pl \/ rebal_withdraw_sol dp D S auth to lst x y avail = Ok pl \/
   exists fuel from, rebal_stake R dp D fuel S auth to from lst x y avail = Ok pl) ->
  plan_asks pl.
Proof.
  intros Hx [H|[H|(fuel & from & H)]].
  - unfold rebal_sol in H. unbind H. injection H as <-.
    match goal with X : rebal_ixs _ _ _ _ _ _ _ _ _ _ = Ok _ |- _ => rename X into Hr end.
    match goal with X : of_option Panic (calc_accounts_of _ _) = Ok _ |- _ => rename X into Hc end.
    exact (rebal_asks _ _ _ _ _ _ _ _ _ _ _ _ Hx wsol_read (read_of _ _ _ Hc) Hr).
  - unfold rebal_withdraw_sol in H. unbind H. injection H as <-.
    match goal with X : rebal_ixs _ _ _ _ _ _ _ _ _ _ = Ok _ |- _ => rename X into Hr end.
    match goal with X : of_option Panic (calc_accounts_of _ _) = Ok _ |- _ => rename X into Hc end.
    exact (rebal_asks _ _ _ _ _ _ _ _ _ _ _ _ Hx (read_of _ _ _ Hc) wsol_read Hr).
  - unfold rebal_stake in H. unbind H. injection H as <-.
    match goal with X : rebal_ixs _ _ _ _ _ _ _ _ _ _ = Ok _ |- _ => rename X into Hr end.
    match goal with X : of_option Panic (calc_accounts_of _ from) = Ok _, Y : of_option Panic (calc_accounts_of _ lst) = Ok _ |- _ =>
      exact (rebal_asks _ _ _ _ _ _ _ _ _ _ _ _ Hx (read_of _ _ _ X) (read_of _ _ _ Y) Hr) end.
Qed.

(** The tool's SyncSolValue instructions. *)
Lemma sync_asks D l m tp accs t : all_read accs -> sync_ix D l m tp accs = Ok t -> exists i, asks_only t (SyncSolValue i).
Proof.
  intros Hr H. unfold sync_ix in H. destruct (built_properly D (sync_view l tp) (QSync m accs) _ I H) as (ix & P).
  pose proof (proper_only _ _ _ P Hr) as O. pose proof (proj1 O) as Hdec.
  unfold client_sync in H. unplan H. destruct a0 as (i & ls). unplan H. destruct a2 as (g & n).
  apply u32_is in Ha2 as (-> & Hu). exists i. assert (ix = SyncSolValue i) as <-; [|exact O].
  match type of H with Ok ?x = Ok _ => assert (Et : t = x) by congruence end. rewrite Et, decode_built in Hdec by exact Hu. congruence.
Qed.
Theorem C59_sync dp D l chunk ts : sync_ixs dp D l chunk = Ok ts -> Forall (fun t => exists i, asks_only t (SyncSolValue i)) ts.
Proof.
  revert ts. induction chunk as [|s rest IH]; intros ts H; cbn [sync_ixs] in H.
  - injection H as <-. constructor.
  - unbind H. injection H as <-. constructor; [eapply sync_asks; [eapply read_of|]; eassumption|]. apply IH. assumption.
Qed.

(** ** What Jupiter is told *)
Lemma common_read cfg m p : all_read (common_metas cfg m p).
Proof. intros x Hx. cbn in Hx. repeat destruct Hx as [<-|Hx]; try reflexivity. destruct Hx. Qed.
Lemma kn_read dp k : all_read (kn_ix_accounts dp k).
Proof. destruct k; cbn [kn_ix_accounts]; try apply common_read. exact wsol_read. Qed.
Lemma calc_read accs prog g n : extend_with_calc accs prog = Ok (g, n) -> all_read accs -> all_read g.
Proof. intros H Ha m Hm. destruct (in_calc _ _ _ _ _ H Hm); auto. Qed.
Lemma two_read a b p g n n' : extend_with_src_dst a b p = Ok (g, (n, n')) -> all_read a -> all_read b -> all_read g.
Proof. intros H Ha Hb m Hm. destruct (in_two _ _ _ _ _ _ _ H Hm) as [|Hi]; auto. exact (read_app _ _ Ha Hb m Hi). Qed.
Lemma price_read accs prog g : extend_with_price_swap accs prog = Ok g -> all_read accs -> all_read g.
Proof. intros H Ha m Hm. destruct (in_price _ _ _ _ H Hm); auto. Qed.
Lemma all4 a b c d : all_read [ro a; ro b; ro c; ro d].
Proof. intros m Hm. cbn in Hm. repeat destruct Hm as [<-|Hm]; try reflexivity. destruct Hm. Qed.

Theorem C59_jupiter dp D SP p sw metas mode a b : get_swap_and_account_metas dp D SP p = Ok (sw, metas) ->
  exists k, map lent metas = R_ :: privileges (jup_ix sw mode a b) ++ repeat R_ k.
Proof.
  assert (Q : forall s la lp m ld pa mkix, all_read pa -> liquidity_metas dp D SP s la lp m ld pa mkix = Ok (sw, metas) ->
    exists n i, sw = mkix n i /\ exists k, map lent metas = R_ :: [S_; R_; W_; W_; W_; W_; R_; R_; W_; W_; W_] ++ repeat R_ k).
  { intros s la lp m ld pa mkix Hpa H. unfold liquidity_metas in H. apply bind_ok in H as (((keys & i) & (calc & pricing)) & Hk & H).
    unbind H. injection H as <- <-. unfold liquidity_keys in Hk. unbind Hk. injection Hk as <- <- <- <-.
    do 2 eexists. split; [reflexivity|]. cbn [app map]. eexists. cbn [lent ro sg wr is_signer is_writable].
    match goal with X : extend_with_calc (kn_ix_accounts _ _) _ = _, Y : extend_with_calc pa _ = _ |- _ =>
      pose proof (read_app _ _ (calc_read _ _ _ _ X (kn_read _ _)) (calc_read _ _ _ _ Y Hpa)) as Hr end.
    rewrite (read_repeat _ Hr). reflexivity. }
  assert (W : swap_exact_in_swap_and_account_metas dp D SP p = Ok (sw, metas) ->
    (exists n n' i j, sw = SanctumS n n' i j) /\ exists k, map lent metas = R_ :: [S_; R_; R_; W_; W_; W_; R_; R_; W_; W_; W_; W_] ++ repeat R_ k).
  { intros H. unfold swap_exact_in_swap_and_account_metas in H. apply bind_ok in H as ((x1 & sld) & _ & H). apply bind_ok in H as ((x2 & dld) & _ & H).
    apply bind_ok in H as (((keys & (i & j)) & pr) & Hk & H). apply bind_ok in H as ((g & (ns & nd)) & Hg & H).
    apply bind_ok in H as (pp & _ & H). apply bind_ok in H as (pa & Hpa & H). apply bind_ok in H as (gp & Hgp & H). unbind H. injection H as <- <-.
    split; [eauto|]. cbn [map app lent ro]. exists (length (g ++ gp)). f_equal. rewrite map_app, (swap_keys_flags _ _ _ _ _ _ _ _ _ _ Hk), read_repeat; [reflexivity|].
    apply read_app; [eapply two_read; [exact Hg|apply kn_read|apply kn_read]|]. eapply price_read; [exact Hgp|].
    unfold kf_swap_accounts in Hpa. destruct (kf_fee_account _ _) in Hpa; [destruct (kf_fee_account _ _) in Hpa|];
      try (unbind Hpa); injection Hpa as <-; apply all4. }
  unfold get_swap_and_account_metas. intros H. apply bind_ok in H as (ps & _ & H).
  destruct (_ =? _) in H; [|destruct (_ =? _) in H; [|]].
  - unfold remove_liquidity_swap_and_account_metas in H. unbind H. apply Q in H; [|intros m Hm; cbn in Hm; repeat destruct Hm as [<-|Hm]; try reflexivity; destruct Hm].
    destruct H as (n & i & -> & k & E). exists k. rewrite E. destruct mode; reflexivity.
  - unfold add_liquidity_swap_and_account_metas in H. unbind H. apply Q in H; [|intros m [<-|[]]; reflexivity].
    destruct H as (n & i & -> & k & E). exists k. rewrite E. destruct mode; reflexivity.
  - assert (H' : swap_exact_in_swap_and_account_metas dp D SP p = Ok (sw, metas)) by (destruct (_ =? _) in H; exact H).
    destruct (W H') as ((n & n' & i & j & ->) & k & E). exists k. rewrite E. destruct mode; reflexivity.
Qed.

(* ------------------------------------------------------------------ *)
(** * The flat-fee program and the calculators *)
Ltac demanded H := repeat match type of H with
  | (let '(_, _) := ?x in _) = Ok _ => destruct x
  | match ?l with [] => _ | _ :: _ => _ end = Ok _ => destruct l; [discriminate H|]
  | bind _ _ = Ok _ => let a := fresh "a" in let Ha := fresh "Ha" in apply bind_ok in H as (a & Ha & H)
  | guard _ _ _ = Ok _ => let Hg := fresh "Hg" in apply guard_ok in H as (Hg & H)
  | verify_keys_privs _ _ _ _ _ = Ok _ => unfold verify_keys_privs in H
  end;
  repeat match goal with X : privileges_ok _ _ = true |- _ =>
    unfold privileges_ok in X; cbn [forallb] in X; rewrite !andb_true_iff in X end;
  cbn [length firstn]; repeat (apply Forall2_cons || apply Forall2_nil); unfold has; cbn [fst snd R_ W_ S_ SW];
  split; intros; first [discriminate|tauto].

(** Whatever these programs carry out was passed at least the privileges documented, in any state of the chain. *)
Theorem C59_flat_demanded R F pw accs ix r ps : flat_privileges ix = Some ps -> flat_process R F pw accs ix = Ok r ->
  Forall2 has (firstn (length ps) accs) ps.
Proof.
  intros Hp H. destruct ix; try discriminate Hp; injection Hp as <-; cbn [flat_process] in H; apply bind_ok in H as (pw' & H & _).
  - unfold process_set_lp_withdrawal_fee in H. demanded H.
  - unfold process_set_lst_fee in H. demanded H.
  - unfold process_flat_remove_lst in H. demanded H.
  - unfold process_flat_add_lst in H. demanded H.
  - unfold process_flat_set_manager in H. demanded H.
  - unfold process_flat_initialize in H. demanded H.
Qed.
Theorem C59_calc_demanded R cfg pw accs ix r ps : calc_privileges ix = Some ps -> calc_process R cfg pw accs ix = Ok r ->
  Forall2 has (firstn (length ps) accs) ps.
Proof.
  intros Hp H. destruct ix; try discriminate Hp; injection Hp as <-; cbn [calc_process] in H; apply bind_ok in H as (pw' & H & _).
  - unfold process_update_last_upgrade_slot in H. demanded H.
  - unfold process_calc_set_manager in H. demanded H.
  - unfold process_calc_init in H. demanded H.
Qed.

Lemma less_refused ps metas n m p : map lent metas = ps -> nth_error metas n = Some m -> lacks p (lent m) ->
  ~ Forall2 has (firstn (length ps) (lending n p metas)) ps.
Proof.
  intros <- Hn Hl Hd. assert (Hlt : (n < length metas)%nat) by (apply nth_error_Some; congruence).
  assert (X : nth_error (firstn (length (map lent metas)) (lending n p metas)) n = Some (mkMeta (mk m) (fst p) (snd p))).
  { rewrite nth_firstn by (rewrite map_length; exact Hlt). apply lending_nth, Hn. }
  destruct (forall2_nth _ _ _ _ _ Hd X) as (y & Hy & Hs & Hw). cbn [is_signer is_writable] in Hs, Hw.
  rewrite nth_error_map, Hn in Hy. cbn in Hy. injection Hy as <-.
  destruct Hl as [(A & B)|(A & B)]; [specialize (Hs A)|specialize (Hw A)]; congruence.
Qed.

(** What the managers' tools send asks for exactly what is documented, and nothing could be spared. *)
Theorem C59_flat_tool R F pw payer mgr c metas ix : flat_plan F pw payer mgr c = Ok (metas, ix) ->
  flat_privileges ix = Some (map lent metas) /\
  forall n m p pw1 r, nth_error metas n = Some m -> lacks p (lent m) -> flat_process R F pw1 (lending n p metas) ix <> Ok r.
Proof.
  intros H. assert (Hp : flat_privileges ix = Some (map lent metas)).
  { destruct c; cbn [flat_plan] in H; unplan H; injection H as <- <-; reflexivity. }
  split; [exact Hp|]. intros n m p pw1 r Hn Hl Hr. exact (less_refused _ _ _ _ _ eq_refl Hn Hl (C59_flat_demanded _ _ _ _ _ _ _ Hp Hr)).
Qed.
Theorem C59_flat_batch R F pw listed i o ixs metas ix : batch_set_fees F pw listed i o = Ok ixs -> In (metas, ix) ixs ->
  flat_privileges ix = Some (map lent metas) /\
  forall n m p pw1 r, nth_error metas n = Some m -> lacks p (lent m) -> flat_process R F pw1 (lending n p metas) ix <> Ok r.
Proof.
  intros H Hin. assert (Hp : flat_privileges ix = Some (map lent metas)).
  { unfold batch_set_fees in H. unplan H. injection H as <-. apply in_map_iff in Hin as (k & Hk & _). injection Hk as <- <-. reflexivity. }
  split; [exact Hp|]. intros n m p pw1 r Hn Hl Hr. exact (less_refused _ _ _ _ _ eq_refl Hn Hl (C59_flat_demanded _ _ _ _ _ _ _ Hp Hr)).
Qed.
Theorem C59_calc_tool R cfg loader pw payer mgr c metas ix : calc_plan cfg loader pw payer mgr c = Ok (metas, ix) ->
  calc_privileges ix = Some (map lent metas) /\
  forall n m p pw1 r, nth_error metas n = Some m -> lacks p (lent m) -> calc_process R cfg pw1 (lending n p metas) ix <> Ok r.
Proof.
  intros H. assert (Hp : calc_privileges ix = Some (map lent metas)).
  { destruct c; cbn [calc_plan] in H; unplan H; injection H as <- <-; reflexivity. }
  split; [exact Hp|]. intros n m p pw1 r Hn Hl Hr. exact (less_refused _ _ _ _ _ eq_refl Hn Hl (C59_calc_demanded _ _ _ _ _ _ _ Hp Hr)).
Qed.
(** The flat-fee tool's simulated prices ask for nothing. *)
Theorem C59_price_tool F inp out : all_read (flat_price_metas F inp out).
Proof. intros m Hm. cbn in Hm. repeat destruct Hm as [<-|Hm]; try reflexivity. destruct Hm. Qed.

(* ------------------------------------------------------------------ *)
(** * Cases *)
From Verif Require Import PropCalc PropFlat.
Definition lesser (q : bool * bool) : list (bool * bool) :=
  filter (fun p => (fst q && negb (fst p)) || (snd q && negb (snd p))) [R_; W_; S_; SW].
Definition lessened (t : TopIx) : list TopIx :=
  flat_map (fun n => match nth_error (ti_accs t) n with Some m => map (fun p => lending_ix n p t) (lesser (lent m)) | None => [] end)
    (seq 0 (length (ti_accs t))).
(** Sixteen kinds of instruction, built from what was fetched five steps in: each goes through after eight, and none of
    its versions lent less does. *)
Example C59_case :
  forallb (fun q => match build D0 W5 q with
    | Ok t => okb (run D0 E0 C0 W8 t) && Nat.leb 2 (length (lessened t)) && forallb (fun u => negb (okb (run D0 E0 C0 W8 u))) (lessened t)
    | Err _ => false end) late_cases = true /\ Forall request_typed late_cases /\ reachable D0 W8.
Proof. split; [vm_compute; reflexivity|]. split; [exact late_cases_typed|exact W8_reach]. Qed.
Lemma late_supplied : forall q, In q late_cases -> all_read (supplied q).
Proof.
  intros q Hq. cbn in Hq. repeat destruct Hq as [<-|Hq]; try destruct Hq;
    intros m Hm; cbn in Hm; repeat destruct Hm as [<-|Hm]; try reflexivity; destruct Hm.
Qed.
Example C59_swap_case : exists t, build D0 W5 late_swap = Ok t /\ length (ti_accs t) = 15%nat /\ (exists ix, asks_only t ix) /\
  okb (run D0 E0 C0 W8 t) = true /\ nth_error (map lent (ti_accs t)) 8 = Some W_ /\
  forall E C w w', reachable D0 w -> run D0 E C w (lending_ix 8 R_ t) <> Ok w'.
Proof.
  assert (H : exists t, build D0 W5 late_swap = Ok t) by (eexists; vm_compute; reflexivity). destruct H as (t & B).
  assert (X : match build D0 W5 late_swap with Ok t => okb (run D0 E0 C0 W8 t) && Nat.eqb (length (ti_accs t)) 15 &&
    match nth_error (ti_accs t) 8 with Some m => negb (is_signer m) && is_writable m | None => false end | Err _ => false end = true) by (vm_compute; reflexivity).
  rewrite B in X. rewrite !andb_true_iff in X. destruct X as ((X1 & X2) & X3). apply Nat.eqb_eq in X2.
  destruct (nth_error (ti_accs t) 8) as [m|] eqn:Hn; [|discriminate]. apply andb_true_iff in X3 as (X3 & X4). apply negb_true_iff in X3.
  assert (L : lent m = W_) by (unfold lent, W_; congruence).
  assert (Hr : all_read (supplied late_swap)).
  { intros x Hx. cbn in Hx. repeat destruct Hx as [<-|Hx]; try reflexivity. destruct Hx. }
  exists t. split; [exact B|]. split; [exact X2|]. split; [exact (C59_only_documented D0 W5 late_swap t late_swap_typed B Hr)|]. split; [exact X1|].
  split; [rewrite nth_error_map, Hn; cbn; congruence|].
  intros E C w w' HR. destruct (C59_nothing_spare D0 D0_ok W5 late_swap t late_swap_typed B 8 m Hn) as [Hi|G].
  - rewrite (Hr m Hi) in L. discriminate.
  - apply (G R_ E C w w' HR). rewrite L. right. split; reflexivity.
Qed.
Definition flat_less (metas : list Meta) : list (list Meta) :=
  flat_map (fun n => match nth_error metas n with Some m => map (fun p => lending n p metas) (lesser (lent m)) | None => [] end) (seq 0 (length metas)).
Definition flat_spare (pw : PWorld) (payer mgr : key) (c : FlatCmd) : bool :=
  match flat_plan flat_cfg pw payer mgr c with
  | Ok (metas, ix) => okb (flat_process ref_ratio_lib flat_cfg pw metas ix) && Nat.leb 2 (length (flat_less metas)) &&
      forallb (fun l => negb (okb (flat_process ref_ratio_lib flat_cfg pw l ix))) (flat_less metas)
  | Err _ => false end.
Definition calc_spare (pw : PWorld) (payer mgr : key) (c : CalcCmd) : bool :=
  match calc_plan spl_cfg (fun _ => 511) pw payer mgr c with
  | Ok (metas, ix) => okb (calc_process ref_ratio_lib spl_cfg pw metas ix) && Nat.leb 2 (length (flat_less metas)) &&
      forallb (fun l => negb (okb (calc_process ref_ratio_lib spl_cfg pw l ix))) (flat_less metas)
  | Err _ => false end.
Example C59_tools_case :
  forallb (fun '(pw, payer, mgr, c) => flat_spare pw payer mgr c)
    [(fpw0, 600, 600, FInit); (fpw3, 600, 703, FSetManager 1); (fpw3, 703, 703, FSetLpFee 9999); (fpw2, 600, 703, FAddLst 802 7 8);
     (fpw3, 600, 703, FRemoveLst 801 600); (fpw3, 600, 703, FSetLstFee 801 (-10000) 10000)] = true /\
  forallb (fun '(pw, payer, mgr, c) => calc_spare pw payer mgr c)
    [(pw_before, 600, 600, CCInit); (pw_trusted, 600, 503, CCSetManager 9); (pw_upgraded, 503, 503, CCUpdateSlot 510)] = true.
Proof. vm_compute. split; reflexivity. Qed.
(** The operator's tool, planned in the states of C57's cases. *)
Example C59_tool_case : forallb (fun '(w0, w, p, a, c) => match plan D0 w0 p a c with
    | Ok (_, t) => Nat.leb 2 (length (lessened t)) && forallb (fun u => negb (okb (run D0 E0 C0 w u))) (lessened t) | Err _ => false end) late_tool = true /\
  forallb (fun '(w0, w, p, a, c) => okb (late_command D0 E0 C0 w0 w p a c)) late_tool = true.
Proof. split; [vm_compute; reflexivity|exact late_tool_ok]. Qed.

From Verif Require PropJup PropCliCase.
Definition jup_lent (p : SwapParams) : option (list (bool * bool)) :=
  match get_swap_and_account_metas PropJup.dp1 D0 PropJup.client2 p with Ok (_, metas) => Some (map lent metas) | Err _ => None end.
Example C59_jupiter_case :
  jup_lent (PropJup.params MA MB UA UB 10000 1) = Some (R_ :: [S_; R_; R_; W_; W_; W_; R_; R_; W_; W_; W_; W_] ++ repeat R_ 13) /\
  jup_lent (PropJup.params MA LP UA UL 10000 1) = Some (R_ :: [S_; R_; W_; W_; W_; W_; R_; R_; W_; W_; W_] ++ repeat R_ 6).
Proof. vm_compute. split; reflexivity. Qed.
Example C59_rebalance_case :
  okb PropCliCase.RS1 = true /\
  map lent (ti_accs (pl_start PropCliCase.Pst)) = [S_; W_; W_; W_; R_; R_; W_; W_; W_; R_; R_; R_] ++ repeat R_ 10 /\
  map lent (ti_accs (pl_end PropCliCase.Pst)) = [S_; W_; W_; W_; R_; R_] ++ repeat R_ 5.
Proof. vm_compute. repeat split. Qed.
