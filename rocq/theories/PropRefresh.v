(** C43: a refreshed client is in step with the chain. *)
From Coq Require Import ZArith List Bool Lia.
From Verif Require Import Base Ratio Calc State Controller Spec InvProofs ShapeProofs Periph PeriphSpec PropFlat
  PropCalc Client ClientSpec Deploy Known Jup JupSpec JupProofs JupPool JupRefresh PropJup Concrete ConcreteReach.
Import ListNotations.
Open Scope Z_scope.

(** A successful update from all accounts the client asks for, when the client has already seen a pool state
    with the present pricing program and no account it has data of has been closed, leaves the cache equal
    to the chain, whatever updates (failed, partial) and chain events came before. *)
Theorem C43_refresh R dp D lsts w pw S m S' :
  derive_ok D -> flat_derive_ok (dp_flat dp) ->
  client_run R dp D lsts w pw S -> fetched dp D w pw S m -> update_full dp D m S = (S', Ok tt) ->
  pricing_known S w -> still_there dp pw S -> jp_epoch S = pw_epoch pw ->
  in_sync dp D S' w pw.
Proof.
  intros HD HF Hr Hf Hu Hk Hs He. apply (refreshed R dp D HD HF w pw S m S'); auto.
  apply (run_aligned R dp D lsts HD HF). exact Hr.
Qed.

Lemma update_reads_pool dp D m S ps : m POOL_STATE_ID = Some (FPool ps) -> jp_pool (fst (update_full dp D m S)) = Some ps.
Proof.
  intros E. unfold update_full.
  destruct (update_lst_data_list dp D m S) as [S1 r1]. destruct (update_pricing_prog dp m S1) as [S2 r2].
  destruct (update_lst_state_list dp m S2) as [S3 r3].
  assert (H4 : jp_pool (fst (update_pool_state dp m S3)) = Some ps).
  { unfold update_pool_state. rewrite E.
    destruct (match jp_pricing S3 with None => true | Some _ => match jp_pool S3 with None => false | Some old => negb (pricing_program old =? pricing_program ps) end end);
      [|reflexivity]. destruct (try_pricing_prog dp ps (jp_list S3)) as [pp|]; [|reflexivity].
    destruct (kf_update dp m pp) as [pp' r]. reflexivity. }
  destruct (update_pool_state dp m S3) as [S4 r4]. cbn [fst] in H4.
  assert (H5 : jp_pool (fst (update_lp_token_supply m S4)) = Some ps).
  { unfold update_lp_token_supply. rewrite H4. destruct (m (lp_token_mint ps)) as [[]|]; try exact H4. }
  destruct (update_lp_token_supply m S4) as [S5 r5]. exact H5.
Qed.

(** Two updates always suffice: after any first one (even one that reports an error) the second, if it
    succeeds, leaves the cache equal to the chain, unless the pricing program changed between the two or an
    account was closed. *)
Theorem C43_two_updates R dp D lsts w1 pw1 S0 m1 w2 pw2 m2 S2 :
  derive_ok D -> flat_derive_ok (dp_flat dp) ->
  client_run R dp D lsts w1 pw1 S0 -> fetched dp D w1 pw1 S0 m1 ->
  let S1 := set_epoch (fst (update_full dp D m1 S0)) (pw_epoch pw2) in
  steps D w1 w2 -> flat_steps R (dp_flat dp) pw1 pw2 ->
  option_map pricing_program (the_pool w2) = option_map pricing_program (the_pool w1) ->
  still_there dp pw2 S1 -> fetched dp D w2 pw2 S1 m2 -> update_full dp D m2 S1 = (S2, Ok tt) ->
  in_sync dp D S2 w2 pw2.
Proof.
  intros HD HF Hr Hf S1 Hw Hp Hpr Hst Hf2 Hu.
  pose proof (run_aligned R dp D lsts HD HF _ _ _ Hr) as A.
  assert (Hr1 : client_run R dp D lsts w2 pw2 S1).
  { unfold S1. apply cr_epoch. eapply cr_periph; [|exact Hp]. eapply cr_chain; [|exact Hw]. apply cr_update; [exact Hr|apply Hf]. }
  eapply C43_refresh; eauto. pose proof (al_init _ _ _ _ _ _ A) as Hi. destruct (the_pool w1) as [ps1|] eqn:H1; [|congruence].
  destruct (the_pool w2) as [ps2|] eqn:H2; [|discriminate]. cbn in Hpr. exists ps1, ps2. split; [|split; [auto|congruence]].
  unfold S1. cbn [set_epoch jp_pool]. apply update_reads_pool. destruct Hf as (_ & Hf). rewrite Hf by (right; left; auto).
  unfold chain_account. rewrite Z.eqb_refl, H1. reflexivity.
Qed.

(** With C25: a refreshed client's quotes are what the chain does. *)
Theorem C43_quote R dp D lsts pw other C w S0 m S p mode q :
  ratio_lib_ok R -> pools_typed pw -> deploy_ok dp -> flat_derive_ok (dp_flat dp) -> derive_ok D ->
  client_run R dp D lsts w pw S0 -> fetched dp D w pw S0 m -> update_full dp D m S0 = (S, Ok tt) ->
  pricing_known S0 w -> still_there dp pw S0 -> jp_epoch S0 = pw_epoch pw ->
  Z.of_nat (length (jp_list S)) <= U32_MAX -> calculators_ready dp pw S -> pool_active w ->
  p_source_mint p <> p_destination_mint p -> U64 (asked p mode) ->
  quote_full R S mode (p_source_mint p) (p_destination_mint p) (asked p mode) = Ok q -> accepts p mode q ->
  exists t, swap_ix dp D S p mode = Ok t /\
    match run D (deployed_env R dp pw other) C w t with
    | Ok w' => carried_out D w w' p (q_in_amount q) (q_out_amount q)
    | Err e => late_refusal D S w p q e
    end.
Proof.
  intros HR HT HDp HF HD Hr Hf Hu Hk Hs He Hlen Hrd Hact Hne HU Hq Hacc.
  pose proof (run_aligned R dp D lsts HD HF _ _ _ Hr) as A.
  pose proof (C43_refresh R dp D lsts w pw S0 m S HD HF Hr Hf Hu Hk Hs He) as Hsync.
  eapply C25_quote; eauto; [exact (al_flat _ _ _ _ _ _ A)|exact (al_reach _ _ _ _ _ _ A)].
Qed.

(** An update never forgets an LST the client knows and the pool still lists with the same calculator, at
    least among the first positions (as many as the client's list had). *)
Lemma rebuild_nth dp all olds xs news n o x new : nth_error olds n = Some o -> nth_error xs n = Some x ->
  nth_error news n = Some new -> nth_error (rebuild dp all olds xs news) n = Some (rebuilt_entry dp all o x new).
Proof.
  revert olds xs n. induction news as [|y news IH]; intros [|a olds] [|b xs] [|n]; cbn; try discriminate; [congruence|apply IH].
Qed.
Lemma NoDup_nth_key (l : list LstState) i j a b : NoDup (map ls_mint l) -> nth_error l i = Some a -> nth_error l j = Some b ->
  ls_mint a = ls_mint b -> i = j.
Proof.
  intros Hnd Hi Hj E. pose proof (proj1 (NoDup_nth_error (map ls_mint l)) Hnd) as H. apply H.
  - rewrite map_length. apply nth_error_Some. congruence.
  - rewrite (map_nth_error _ _ _ Hi), (map_nth_error _ _ _ Hj). congruence.
Qed.
Lemma new_data_keeps R dp D w pw S new n ls ld : aligned R dp D w pw S -> nth_error new n = Some ls -> (n < length (jp_list S))%nat ->
  In (Some ld) (jp_data S) -> named dp ls ld ->
  exists ld', nth_error (new_list_data dp S new) n = Some (Some ld').
Proof.
  intros A Hn Hlt Hin (N1 & N2). destruct (data_in_list _ _ _ _ _ _ _ A Hin) as (k & lk & K1 & K2 & ((M1 & M2) & _)).
  pose proof (Forall2_length (al_data _ _ _ _ _ _ A)) as L.
  destruct (nth_error (jp_list S) n) as [o|] eqn:Ho; [|apply nth_error_None in Ho; lia].
  destruct (nth_error (jp_data S) n) as [x|] eqn:Hx; [|apply nth_error_None in Hx; lia].
  assert (Hsame : ls_mint o = ls_mint ls -> x = Some ld).
  { intros E. assert (n = k) by (eapply NoDup_nth_key; [apply (al_nodup _ _ _ _ _ _ A)|exact Ho|exact K1|congruence]). subst k. congruence. }
  unfold new_list_data. destruct (_ && _) eqn:Eb.
  - apply andb_true_iff in Eb as (_ & Eb). rewrite forallb_forall in Eb.
    assert (Hc : In (o, ls) (combine (jp_list S) new)) by (eapply nth_error_In; eapply nth_combine; eauto).
    apply Eb in Hc. unfold same_entry in Hc. apply andb_true_iff in Hc as (Hc & _). apply Z.eqb_eq in Hc.
    rewrite (Hsame Hc) in Hx. eauto.
  - rewrite (rebuild_nth _ _ _ _ _ _ _ _ _ Ho Hx Hn). unfold rebuilt_entry.
    destruct (Z.eqb_spec (ls_mint o) (ls_mint ls)) as [E|N]; cbn [negb].
    + rewrite (Hsame E), N2, Z.eqb_refl. eauto.
    + pose proof (find_data_none dp _ _ _ _ Hin N1 N2) as Hf. destruct (find_data dp _ _ _) as [ld'|]; [eauto|congruence].
Qed.
Theorem C43_keeps R dp D lsts w pw S m l n ls ld :
  derive_ok D -> flat_derive_ok (dp_flat dp) ->
  client_run R dp D lsts w pw S -> fetched dp D w pw S m ->
  the_list w = Some l -> nth_error l n = Some ls -> (n < length (jp_list S))%nat ->
  In (Some ld) (jp_data S) -> kn_lst_mint dp (ld_calc ld) = ls_mint ls ->
  kn_program_id dp (ld_calc ld) = sol_value_calculator ls ->
  let S' := fst (update_full dp D m S) in
  jp_list S' = l /\ exists ld', nth_error (jp_data S') n = Some (Some ld').
Proof.
  intros HD HF Hr Hf Hl Hn Hlt Hin E1 E2 S'. pose proof (run_aligned R dp D lsts HD HF _ _ _ Hr) as A.
  assert (Hfl : m LST_STATE_LIST_ID = Some (FList l)).
  { destruct Hf as (_ & Hf). rewrite Hf by (left; auto). unfold chain_account. change (LST_STATE_LIST_ID =? POOL_STATE_ID) with false.
    rewrite Z.eqb_refl. rewrite Hl. reflexivity. }
  destruct Hf as (Ht & _). unfold S', update_full.
  pose proof (al_data _ _ _ _ _ _ A) as Hd. destruct (update_data_from_spec dp D m _ _ (Forall2_length Hd)) as (Ed & _).
  pose proof (step1 R dp D w pw S m A) as A1. unfold update_lst_data_list in *.
  destruct (update_data_from dp D m (jp_list S) (jp_data S)) as [d1 r1]. cbn [fst snd] in *.
  pose proof (step2 R dp D HF w pw _ m A1 Ht) as A2.
  assert (H2 : jp_data (fst (update_pricing_prog dp m (set_data S d1))) = d1 /\ jp_list (fst (update_pricing_prog dp m (set_data S d1))) = jp_list S).
  { unfold update_pricing_prog. destruct (jp_pricing (set_data S d1)) as [p|]; [|split; reflexivity]. destruct (kf_update dp m p); split; reflexivity. }
  destruct (update_pricing_prog dp m (set_data S d1)) as [S2 r2]. cbn [fst] in *. destruct H2 as (D2 & L2).
  rewrite (update_list_is dp m S2 l Hfl).
  set (S3 := set_list (set_data S2 (new_list_data dp S2 l)) l).
  assert (H4 : jp_data (fst (update_pool_state dp m S3)) = jp_data S3 /\ jp_list (fst (update_pool_state dp m S3)) = jp_list S3).
  { unfold update_pool_state. destruct (m POOL_STATE_ID) as [[new| | | | |]|]; try (split; reflexivity).
    destruct (match jp_pricing S3 with None => true | Some _ => match jp_pool S3 with None => false | Some old => negb (pricing_program old =? pricing_program new) end end);
      [|split; reflexivity]. destruct (try_pricing_prog dp new (jp_list S3)) as [pp|]; [|split; reflexivity].
    destruct (kf_update dp m pp) as [pp' r]. split; reflexivity. }
  destruct (update_pool_state dp m S3) as [S4 r4]. cbn [fst] in H4. destruct H4 as (D4 & L4).
  assert (H5 : jp_data (fst (update_lp_token_supply m S4)) = jp_data S4 /\ jp_list (fst (update_lp_token_supply m S4)) = jp_list S4).
  { unfold update_lp_token_supply. destruct (jp_pool S4) as [ps|]; [|split; reflexivity]. destruct (m (lp_token_mint ps)) as [[]|]; split; reflexivity. }
  destruct (update_lp_token_supply m S4) as [S5 r5]. cbn [fst] in *. destruct H5 as (D5 & L5).
  rewrite D5, L5, D4, L4. cbn [S3 set_list set_data jp_data jp_list]. split; [reflexivity|].
  destruct (data_in_list _ _ _ _ _ _ _ A Hin) as (k & lk & K1 & K2 & ((M1 & M2) & _)).
  set (ld1 := fst (update_lst_data dp D m lk ld)).
  destruct (update_data_same dp D m lk ld) as (U1 & U2 & _). cbn in U1, U2.
  apply (new_data_keeps R dp D w pw S2 l n ls ld1 A2 Hn); [rewrite L2; exact Hlt| |].
  - rewrite D2, Ed. unfold data_after. apply in_map_iff. exists (lk, Some ld). split; [reflexivity|].
    eapply nth_error_In. eapply nth_combine; eauto.
  - unfold named, ld1. rewrite U1, U2. auto.
Qed.

(* ------------------------------------------------------------------ *)
(** * Cases *)

Lemma known1_ok : known_lsts_ok dp1 W8 known1.
Proof. intros s [<-|[<-|[]]]; (split; [vm_compute; auto|exact I]). Qed.
Lemma w8_init : the_pool W8 <> None.
Proof.
  assert (H : match the_pool W8 with Some _ => true | None => false end = true) by (vm_compute; reflexivity).
  destruct (the_pool W8); [discriminate|discriminate H].
Qed.
Lemma w8_list : the_list W8 = Some (the_list_or W8).
Proof. vm_compute. reflexivity. Qed.
Lemma client0_run : client_run ref_ratio_lib dp1 D0 known1 W8 pw1 client0.
Proof. apply cr_list; [exact W8_reach|exact pw1_reachable|exact known1_ok|exact w8_init|exact w8_list]. Qed.
Lemma fetched_all S w pw : fetched dp1 D0 w pw S (chain_account w pw).
Proof. split; [intros k a; auto|auto]. Qed.
Lemma client1_run : client_run ref_ratio_lib dp1 D0 known1 W8 pw1 client1.
Proof. apply cr_update; [exact client0_run|apply (fetched_all client0)]. Qed.
Definition only (ks : list key) (m : AccMap) : AccMap := fun k => if existsb (Z.eqb k) ks then m k else None.
Definition asked_accounts (S : SPool) : AccMap := only (get_accounts_to_update dp1 D0 S) (chain_account W8 pw1).
(** The hypotheses of C43_refresh met: a client started from the list, after one update. A first update
    from just the accounts asked for reports no error but leaves the LP supply and the fees unread, as the
    library says; a second completes it. *)
Example C43_case :
  client_run ref_ratio_lib dp1 D0 known1 W8 pw1 client1 /\ fetched dp1 D0 W8 pw1 client1 (chain_account W8 pw1) /\
  update_full dp1 D0 (chain_account W8 pw1) client1 = (client2, Ok tt) /\
  pricing_known client1 W8 /\ still_there dp1 pw1 client1 /\ jp_epoch client1 = pw_epoch pw1 /\
  (let '(S1, r1) := update_full dp1 D0 (asked_accounts client0) client0 in
   let '(S2, r2) := update_full dp1 D0 (asked_accounts S1) S1 in
   r1 = Ok tt /\ jp_lp_supply S1 = None /\ jp_pricing S1 = Some (kf_new [MA; MB]) /\ r2 = Ok tt /\ S2 = client2).
Proof.
  split; [exact client1_run|]. split; [apply fetched_all|]. split; [vm_compute; reflexivity|]. split; [|split; [|vm_compute; repeat split]].
  - assert (Hp : jp_pool client1 = the_pool W8) by (vm_compute; reflexivity). pose proof w8_init as Hi. unfold pricing_known.
    rewrite Hp. destruct (the_pool W8) as [ps|]; [exists ps, ps; auto|congruence].
  - split.
    + assert (Hd : jp_data client1 = [Some ld_a; Some ld_b]) by (vm_compute; reflexivity). rewrite Hd.
      intros ld [H|[H|[]]] _; injection H as <-; vm_compute; discriminate.
    + intros p m f. assert (Hp : jp_pricing client1 = Some (mkFlatCache (Some (703, 5)) [(MA, Some (255, 10, 20)); (MB, Some (255, -5, 15))]))
        by (vm_compute; reflexivity). rewrite Hp. intros [= <-] [[= <- <-]|[[= <- <-]|[]]]; vm_compute; discriminate.
Qed.

(** Why [still_there] is needed: the manager removes MA's fee account; the client keeps the old fee although
    its update succeeds, and goes on quoting swaps that the chain refuses. *)
Definition pw_gone : PWorld := put_acc pw1 fee_a no_account.
Definition client_gone : SPool := fst (update_full dp1 D0 (chain_account W8 pw_gone) client2).
Example C43_removed_fee_case :
  flat_reachable ref_ratio_lib flat1 pw_gone /\
  snd (update_full dp1 D0 (chain_account W8 pw_gone) client2) = Ok tt /\
  quoted client_gone (params MA MB UA UB 10000 1) ExactIn = Some (10000, 4991) /\
  (exists e, outcome pw_gone client_gone (params MA MB UA UB 10000 1) ExactIn = Err e) /\
  ~ in_sync dp1 D0 client_gone W8 pw_gone.
Proof.
  split.
  - pose proof pw1_reachable as (pw0 & H0 & Hs). exists pw0. split; [exact H0|]. econstructor; [exact Hs|].
    apply fs_call with [mt 703 true false; mt 900 false true; mt fee_a false true; mt MA false false; mt 702 false false] FlatRemoveLst None.
    reflexivity.
  - split; [vm_compute; reflexivity|]. split; [vm_compute; reflexivity|]. split; [eexists; vm_compute; reflexivity|].
    intros H. assert (Hp : jp_pricing client_gone = Some (mkFlatCache (Some (703, 5)) [(MA, Some (255, 10, 20)); (MB, Some (255, -5, 15))]))
      by (vm_compute; reflexivity).
    pose proof (proj1 (is_pricing _ _ _ _ _ H _ Hp)) as (_ & Hm). specialize (Hm MA).
    assert (Hr : ready_mints client_gone = [MA; MB]) by (vm_compute; reflexivity). rewrite Hr in Hm. specialize (Hm (or_introl eq_refl)).
    assert (E1 : chain_fee (dp_flat dp1) pw_gone MA = None) by (vm_compute; reflexivity). rewrite E1 in Hm. cbn [kf_fees assoc] in Hm.
    rewrite Z.eqb_refl in Hm. discriminate Hm.
Qed.

(** Why C43_keeps is about the first positions only: an LST that moved beyond the end of the old list (here
    it was removed and added again after another one) loses its data, though the client knows it. *)
Definition one_a : list LstState := firstn 1 (the_list_or W8).
Example C43_moved_case :
  let S := mkSPool None None one_a None [Some ld_a] 7 in
  let b_a := skipn 1 (the_list_or W8) ++ one_a in
  map ls_mint b_a = [MB; MA] /\
  jp_data (fst (update_lst_state_list dp1 (fun k => if k =? LST_STATE_LIST_ID then Some (FList b_a) else None) S)) = [None; None].
Proof. vm_compute. auto. Qed.
