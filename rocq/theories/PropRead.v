(** C66: the outcome of a call depends on the accounts passed to it, and on nothing else on the chain. *)
From Coq Require Import ZArith List Bool Lia.
From Verif Require Import Base Ratio State Controller Spec ReadSpec ReadProofs PropRobust Periph Deploy Concrete.
From Verif Require PropCalc.
Import ListNotations.
Open Scope Z_scope.

(** Run on two chains on which the passed accounts are the same, an instruction fails with the same error on both, or
    succeeds on both and leaves the passed accounts the same. *)
Theorem C66_reads D E C w w' accs ix : reads_only_handed E -> agree_on (passed accs) w w' ->
  alike (passed accs) (process D E C w accs ix) (process D E C w' accs ix).
Proof.
  intros HE H. apply (rel_process D E E (passed accs) (reads_asked E _ HE) C w w' accs ix H). intros m Hm. apply in_map. exact Hm.
Qed.

(** On two chains the same everywhere, the results are the same everywhere. *)
Lemma same_account_of k w w' : same_at k w w' -> same_account w w' k.
Proof. intros (?&?&?&?&?&?&?&?). repeat split; congruence. Qed.
Lemma same_account_trans w1 w2 w3 k : same_account w1 w2 k -> same_account w2 w3 k -> same_account w1 w3 k.
Proof. intros (?&?&?&?&?&?&?&?) (?&?&?&?&?&?&?&?). repeat split; congruence. Qed.
Lemma same_account_sym w1 w2 k : same_account w1 w2 k -> same_account w2 w1 k.
Proof. intros (?&?&?&?&?&?&?&?). repeat split; congruence. Qed.
Lemma agree_on_sym P w1 w2 : agree_on P w1 w2 -> agree_on P w2 w1.
Proof. intros H k Hk. apply same_account_sym; auto. Qed.
Lemma writable_passed accs k : passed_writable accs k -> passed accs k.
Proof. intros (a & Hin & _ & <-). apply in_map. exact Hin. Qed.

(** What another call does first does not matter to a call it passes no account of as writable. *)
Corollary C66_others_do_not_matter D E C1 C2 w w1 accs1 ix1 accs2 ix2 : reads_only_handed E ->
  (forall k, passed accs2 k -> ~ passed_writable accs1 k) ->
  process D E C1 w accs1 ix1 = Ok w1 ->
  alike (passed accs2) (process D E C2 w accs2 ix2) (process D E C2 w1 accs2 ix2).
Proof.
  intros HE Hd H1. apply C66_reads; [exact HE|]. intros k Hk. apply same_account_of.
  eapply C38_footprint; [exact H1|]. apply Hd. exact Hk.
Qed.

(** Two calls neither of which may write an account the other is passed can be run in either order, with the same effect
    on every account. *)
Corollary C66_either_order D E C1 C2 w w1 w12 accs1 ix1 accs2 ix2 : reads_only_handed E ->
  (forall k, passed accs2 k -> ~ passed_writable accs1 k) -> (forall k, passed accs1 k -> ~ passed_writable accs2 k) ->
  process D E C1 w accs1 ix1 = Ok w1 -> process D E C2 w1 accs2 ix2 = Ok w12 ->
  exists w2 w21, process D E C2 w accs2 ix2 = Ok w2 /\ process D E C1 w2 accs1 ix1 = Ok w21 /\ forall k, same_account w12 w21 k.
Proof.
  intros HE Hd1 Hd2 H1 H2.
  pose proof (C66_others_do_not_matter D E C1 C2 w w1 accs1 ix1 accs2 ix2 HE Hd1 H1) as A. rewrite H2 in A.
  destruct (process D E C2 w accs2 ix2) as [w2|] eqn:H3; [|destruct A].
  pose proof (C66_others_do_not_matter D E C2 C1 w w2 accs2 ix2 accs1 ix1 HE Hd2 H3) as B. rewrite H1 in B.
  destruct (process D E C1 w2 accs1 ix1) as [w21|] eqn:H4; [|destruct B].
  exists w2, w21. split; [reflexivity|]. split; [exact H4|]. intros k. cbn in A, B.
  destruct (in_dec Z.eq_dec k (map mk accs1)) as [K1|K1].
  - (* passed to the first: the second leaves it alone in either order *)
    eapply same_account_trans; [|apply B; exact K1]. apply same_account_sym, same_account_of.
    eapply C38_footprint; [exact H2|]. apply Hd2. exact K1.
  - assert (N1 : ~ passed_writable accs1 k) by (intros Hw; apply K1, writable_passed; exact Hw).
    apply same_account_sym. eapply same_account_trans; [apply same_account_sym, same_account_of; eapply C38_footprint; [exact H4|exact N1]|].
    destruct (in_dec Z.eq_dec k (map mk accs2)) as [K2|K2]; [apply A; exact K2|].
    assert (N2 : ~ passed_writable accs2 k) by (intros Hw; apply K2, writable_passed; exact Hw).
    eapply same_account_trans; [apply same_account_sym, same_account_of; eapply C38_footprint; [exact H3|exact N2]|].
    eapply same_account_trans; [apply same_account_of; eapply C38_footprint; [exact H1|exact N1]|].
    apply same_account_of. eapply C38_footprint; [exact H2|exact N2].
Qed.

(** The shipped calculators and pricing programs themselves, their administration included, read and write nothing but the
    accounts passed, and the epoch. *)
Section Programs.
Context (P : key -> Prop).
Notation pim := (agree_pw P).
Lemma at_data pw pw' k : pim pw pw' -> P k -> pdata pw k = pdata pw' k.
Proof. intros (_ & H) Hk. unfold pdata. rewrite (H k Hk). reflexivity. Qed.
Lemma at_powner pw pw' k : pim pw pw' -> P k -> powner pw k = powner pw' k.
Proof. intros (_ & H) Hk. unfold powner. rewrite (H k Hk). reflexivity. Qed.
Lemma pim_put pw pw' k a : pim pw pw' -> pim (put_acc pw k a) (put_acc pw' k a).
Proof. intros (He & H). split; [exact He|]. intros x Hx. cbn. unfold upd. destruct (x =? k); auto. Qed.
Lemma rel_write prog pw pw' k d : pim pw pw' -> P k -> rel pim (write_data prog pw k d) (write_data prog pw' k d).
Proof. intros H Hk. unfold write_data. rewrite (at_powner pw pw') by auto. apply rel_guard; [reflexivity|]. cbn. apply pim_put. exact H. Qed.
Lemma rel_iacc prog pw pw' k d : pim pw pw' -> P k -> rel pim (init_account prog pw k d) (init_account prog pw' k d).
Proof.
  intros H Hk. unfold init_account. rewrite (at_powner pw pw'), (at_data pw pw') by auto. apply rel_guard; [reflexivity|].
  destruct (pdata pw' k); try reflexivity. cbn. apply pim_put. exact H.
Qed.
Ltac pmore := match goal with
  | H : allP P ?l |- _ (match ?l with [] => _ | _ => _ end) _ =>
      destruct l as [|? l]; [reflexivity|apply allP_cons in H; destruct H as (? & H)] end.
Ltac prd := unfold verify_no_stake_pool_prog_upgrade, deserialize_stake_pool_check_program_owner, read_programdata_addr, read_stake_pool_progdata_meta,
    try_calculator_state, try_program_state, try_fee_account;
  repeat match goal with H : pim ?pw ?pw' |- context [pdata ?pw ?k] => rewrite (at_data pw pw' k H) by assumption
  | H : pim ?pw ?pw' |- context [powner ?pw ?k] => rewrite (at_powner pw pw' k H) by assumption
  | H : pim ?pw ?pw' |- context [pw_epoch ?pw] => rewrite (proj1 H) end.
Ltac pgo := repeat first
  [ apply rel_write; assumption | apply rel_iacc; assumption
  | apply rel_err
  | match goal with |- rel _ (guard _ _ _) (guard _ _ _) => apply rel_guard; [reflexivity|] end
  | match goal with |- rel _ (verify_keys_privs _ _ _ _ _) _ => unfold verify_keys_privs end
  | match goal with |- rel _ (let '(_, _) := ?p in _) (let '(_, _) := ?p in _) => destruct p end
  | match goal with |- rel _ (bind ?m _) (bind ?m _) => apply (rel_bind eq); [apply rel_eq; reflexivity|intros ? ? <-] end ].

Lemma lsc_same cfg pw pw' accs : pim pw pw' -> allP P accs -> verify_lst_sol_common cfg pw accs = verify_lst_sol_common cfg pw' accs.
Proof. intros H Ha. unfold verify_lst_sol_common. repeat pmore. prd. reflexivity. Qed.
Lemma vpe_same F pw pw' accs : pim pw pw' -> allP P accs -> verify_price_exact F pw accs = verify_price_exact F pw' accs.
Proof. intros H Ha. unfold verify_price_exact. repeat pmore. prd. reflexivity. Qed.
Lemma plr_same F pw pw' accs v : pim pw pw' -> allP P accs -> process_price_lp_tokens_to_redeem F pw accs v = process_price_lp_tokens_to_redeem F pw' accs v.
Proof. intros H Ha. unfold process_price_lp_tokens_to_redeem. repeat pmore. prd. reflexivity. Qed.
Lemma rel_none {A} r r' : rel pim r r' -> alike_pw P (bind r (fun pw => Ok (pw, @None A))) (bind r' (fun pw => Ok (pw, None))).
Proof. destruct r, r'; cbn; auto. Qed.
Lemma answer_alike {A} pw pw' (r : res A) : pim pw pw' -> alike_pw P (bind r (fun v => Ok (pw, Some v))) (bind r (fun v => Ok (pw', Some v))).
Proof. destruct r; cbn; auto. Qed.
Lemma calc_alike R cfg pw pw' accs ix : pim pw pw' -> allP P accs -> alike_pw P (calc_process R cfg pw accs ix) (calc_process R cfg pw' accs ix).
Proof.
  intros H Ha. unfold calc_process. destruct ix.
  - rewrite (lsc_same cfg pw pw') by auto. destruct (verify_lst_sol_common cfg pw' accs); cbn [bind]; [apply answer_alike; exact H|reflexivity].
  - rewrite (lsc_same cfg pw pw') by auto. destruct (verify_lst_sol_common cfg pw' accs); cbn [bind]; [apply answer_alike; exact H|reflexivity].
  - apply rel_none. unfold process_update_last_upgrade_slot. repeat pmore. prd. pgo.
  - apply rel_none. unfold process_calc_set_manager. repeat pmore. prd. pgo.
  - apply rel_none. unfold process_calc_init. repeat pmore. prd. pgo.
Qed.
Lemma flat_alike R F pw pw' accs ix : pim pw pw' -> allP P accs -> alike_pw P (flat_process R F pw accs ix) (flat_process R F pw' accs ix).
Proof.
  intros H Ha. unfold flat_process. destruct ix.
  - unfold process_price_exact_in. rewrite (vpe_same F pw pw') by auto. apply answer_alike. exact H.
  - unfold process_price_exact_out. rewrite (vpe_same F pw pw') by auto. apply answer_alike. exact H.
  - apply answer_alike. exact H.
  - rewrite (plr_same F pw pw') by auto. apply answer_alike. exact H.
  - apply rel_none. unfold process_set_lp_withdrawal_fee. repeat pmore. prd. pgo.
  - apply rel_none. unfold process_set_lst_fee. repeat pmore. prd. pgo.
  - apply rel_none. unfold process_flat_remove_lst. repeat pmore. prd. pgo.
    destruct (_ =? _); [cbn; apply pim_put; exact H|]. match goal with |- context [match ?d with PEmpty => _ | _ => _ end] => destruct d end; try reflexivity. exact H.
  - apply rel_none. unfold process_flat_add_lst. repeat pmore. prd. pgo.
  - apply rel_none. unfold process_flat_set_manager. repeat pmore. prd. pgo.
  - apply rel_none. unfold process_flat_initialize. repeat pmore. prd. pgo.
Qed.
End Programs.

Lemma passed_all accs : allP (passed accs) accs.
Proof. intros m Hm. apply in_map. exact Hm. Qed.
Theorem C66_calculators R cfg pw pw' accs ix : agree_pw (passed accs) pw pw' ->
  alike_pw (passed accs) (calc_process R cfg pw accs ix) (calc_process R cfg pw' accs ix).
Proof. intros H. apply calc_alike; [exact H|apply passed_all]. Qed.
Theorem C66_flat_fee R F pw pw' accs ix : agree_pw (passed accs) pw pw' ->
  alike_pw (passed accs) (flat_process R F pw accs ix) (flat_process R F pw' accs ix).
Proof. intros H. apply flat_alike; [exact H|apply passed_all]. Qed.

(** The controller with the shipped calculators and pricing programs: whatever differs elsewhere, in their accounts too. *)
Lemma calc_answer_same R dp P pw pw' o o' p m accs ix : agree_pw P pw pw' -> P m -> allP P accs -> o = o' ->
  calc_answer R dp pw o p m accs ix = calc_answer R dp pw' o' p m accs ix.
Proof.
  intros H Hm Ha ->. unfold calc_answer. destruct (p =? dp_wsol dp); [reflexivity|]. destruct (calc_cfg dp p) as [cfg|]; [|reflexivity].
  assert (Hc : allP P (cpi_ro m :: accs)) by (intros x [<-|Hx]; [exact Hm|auto]).
  pose proof (calc_alike P R cfg pw pw' (cpi_ro m :: accs) ix H Hc) as A.
  destruct (calc_process R cfg pw (cpi_ro m :: accs) ix) as [[]|], (calc_process R cfg pw' (cpi_ro m :: accs) ix) as [[]|]; cbn in A |- *; try tauto; try congruence.
  destruct A as (<- & _). reflexivity.
Qed.
Lemma price_answer_same R dp P pw pw' o o' p accs ix : agree_pw P pw pw' -> allP P accs -> o = o' ->
  price_answer R dp pw o p accs ix = price_answer R dp pw' o' p accs ix.
Proof.
  intros H Ha ->. unfold price_answer. destruct (p =? ff_id (dp_flat dp)); [|reflexivity].
  pose proof (flat_alike P R (dp_flat dp) pw pw' accs ix H Ha) as A.
  destruct (flat_process R (dp_flat dp) pw accs ix) as [[]|], (flat_process R (dp_flat dp) pw' accs ix) as [[]|]; cbn in A |- *; try tauto; try congruence.
  destruct A as (<- & _). reflexivity.
Qed.
Lemma deployed_alike R dp pw pw' other P : agree_pw P pw pw' -> reads_only_handed other ->
  asked_alike (deployed_env R dp pw other) (deployed_env R dp pw' other) P.
Proof.
  intros Hp HE w w' accs H Ha. destruct (reads_asked other P HE w w' accs H Ha) as (H1 & H2 & H3). unfold deployed_env.
  cbn [e_lst_to_sol e_sol_to_lst e_price_exact_in e_price_exact_out e_price_lp_to_mint e_price_lp_to_redeem].
  split; [|split].
  - intros p m x Kp Km. destruct (H1 p m x Kp Km). split; apply calc_answer_same with (P := P); auto.
  - intros p i o a x Kp Ki Ko. destruct (H2 p i o a x Kp Ki Ko).
    split; apply price_answer_same with (P := P); auto; (intros y [<-|[<-|Hy]]; [exact Ki|exact Ko|auto]).
  - intros p m a x Kp Km. destruct (H3 p m a x Kp Km).
    split; apply price_answer_same with (P := P); auto; (intros y [<-|Hy]; [exact Km|auto]).
Qed.
Theorem C66_shipped R dp pw pw' other D C w w' accs ix : reads_only_handed other ->
  agree_on (passed accs) w w' -> agree_pw (passed accs) pw pw' ->
  alike (passed accs) (process D (deployed_env R dp pw other) C w accs ix) (process D (deployed_env R dp pw' other) C w' accs ix).
Proof.
  intros HE H Hp. apply (rel_process D _ _ (passed accs) (deployed_alike R dp pw pw' other _ Hp HE) C w w' accs ix H). apply passed_all.
Qed.

(** On one chain, [C66_reads] and its corollaries hold of them. *)
Theorem C66_shipped_reads R dp pw other : reads_only_handed other -> reads_only_handed (deployed_env R dp pw other).
Proof.
  intros H w w' accs. destruct (H w w' accs) as (H1 & H2 & H3). unfold deployed_env.
  cbn [e_lst_to_sol e_sol_to_lst e_price_exact_in e_price_exact_out e_price_lp_to_mint e_price_lp_to_redeem].
  split; [|split].
  - intros p m x Hx. destruct (H1 p m x Hx) as (A & B). rewrite A, B. split; reflexivity.
  - intros p i o a x Hx. destruct (H2 p i o a x Hx) as (A & B). rewrite A, B. split; reflexivity.
  - intros p m a x Hx. destruct (H3 p m a x Hx) as (A & B). rewrite A, B. split; reflexivity.
Qed.

(** The case: the swap of the example, after somebody emptied the fee beneficiary's account, removed the LP mint's authority
    and made USER a disable authority, does the same. *)
Example C66_case_env : reads_only_handed E0.
Proof. intros w w' accs. repeat split. Qed.
Definition elsewhere (w : World) : World := put_auth (put_mint (put_tok w BF None) LP None) DISABLE_POOL_AUTHORITY_LIST_ID (Some [USER]).
Lemma elsewhere_same w : agree_on (passed swap_accs) w (elsewhere w).
Proof.
  intros k Hk. unfold passed in Hk. cbn in Hk. repeat (destruct Hk as [<-|Hk]; [unfold same_account; cbn; repeat split; reflexivity|]). destruct Hk.
Qed.
Definition W5b : World := elsewhere W5.
Example C66_case : okb R6 = true /\ w_tok W5 BF <> w_tok W5b BF /\ w_mint W5 LP <> w_mint W5b LP /\ agree_on (passed swap_accs) W5 W5b /\
  alike (passed swap_accs) R6 (process D0 E0 C0 W5b swap_accs (SwapExactIn swap_in_args)).
Proof.
  split; [vm_compute; reflexivity|]. split; [vm_compute; discriminate|]. split; [vm_compute; discriminate|]. split; [exact (elsewhere_same W5)|].
  exact (C66_reads D0 E0 C0 W5 W5b swap_accs (SwapExactIn swap_in_args) C66_case_env (elsewhere_same W5)).
Qed.
(* listing the second LST and adding a disable authority, on either side of each other *)
Definition auth_accs2 := [sw USER; sg ADMIN; ro POOL_STATE_ID; ro USER; rw DISABLE_POOL_AUTHORITY_LIST_ID; ro SYSTEM_PROGRAM_ID].
Definition mb_accs := add_accs MB RB FB CB SPL_TOKEN_2022_ID.
Example C66_case_order : (forall k, passed auth_accs2 k -> ~ passed_writable mb_accs k) /\ (forall k, passed mb_accs k -> ~ passed_writable auth_accs2 k) /\
  okb R3 = true /\ okb (process D0 E0 C0 W3 auth_accs2 AddDisablePoolAuthority) = true.
Proof.
  split; [|split; [|split; vm_compute; reflexivity]].
  - intros k Hk (a & Hin & Hw & <-). unfold passed in Hk. cbn in Hin.
    repeat (destruct Hin as [<-|Hin]; [first [discriminate Hw|cbn in Hk; intuition discriminate]|]). destruct Hin.
  - intros k Hk (a & Hin & Hw & <-). unfold passed in Hk. cbn in Hin.
    repeat (destruct Hin as [<-|Hin]; [first [discriminate Hw|cbn in Hk; intuition discriminate]|]). destruct Hin.
Qed.
(* the example calculator's price, with another stake pool's account added to the chain: its answer is the same; and it is one *)
Definition pw_more : PWorld := put_acc PropCalc.pw_trusted 505 (mkPAcc 510 (PSpl PropCalc.spl_pool_x)).
Example C66_case_calculator : agree_pw (passed PropCalc.price_accs) PropCalc.pw_trusted pw_more /\
  pw_acc pw_more 505 <> pw_acc PropCalc.pw_trusted 505 /\
  calc_process ref_ratio_lib PropCalc.spl_cfg pw_more PropCalc.price_accs (LstToSol 300000) = Ok (pw_more, Some (399600, 399600)).
Proof.
  split; [|split; [vm_compute; discriminate|reflexivity]]. split; [reflexivity|].
  intros k Hk. unfold passed in Hk. cbn in Hk. repeat (destruct Hk as [<-|Hk]; [reflexivity|]). destruct Hk.
Qed.
