(** The rest of the example history: an outside deposit during the rebalance, then its end. *)
From Coq Require Import ZArith List Bool Lia.
From Verif Require Import Base Ratio Calc State Controller Inversion Spec InvProofs TokProofs ShapeProofs Concrete.
Import ListNotations.
Open Scope Z_scope.

(** A user's own token transfer is an outside step. *)
Lemma transfer_external D w prog from to mint auth s amt w' :
  tokens_u64 w -> ata_ok D w -> 0 <= amt -> ~ In auth controller_pdas ->
  transfer_checked w prog from to mint auth s amt = Ok w' -> external_step D w w'.
Proof.
  intros Hu Hata Ha Hn H. pose proof (transfer_ctl _ _ _ _ _ _ _ _ _ H) as (A & B & C & Dd & _).
  pose proof (transfer_tc _ _ _ _ _ _ _ _ _ H) as (_ & Hm & Ho).
  assert (N1 : auth <> POOL_STATE_ID) by (intros ->; apply Hn; cbn; tauto).
  assert (N2 : auth <> PROTOCOL_FEE_ID) by (intros ->; apply Hn; cbn; tauto).
  constructor; unfold the_pool, the_list, the_authorities, the_record; try congruence.
  - intros k t Ht [Hp|Hp].
    + destruct (transfer_keeps POOL_STATE_ID _ _ _ _ _ _ _ _ _ Ha N1 H k t Ht Hp) as (t' & ? & ? & ? & ?).
      exists t'. repeat split; auto; congruence.
    + destruct (transfer_keeps PROTOCOL_FEE_ID _ _ _ _ _ _ _ _ _ Ha N2 H k t Ht Hp) as (t' & ? & ? & ? & ?).
      exists t'. repeat split; auto; congruence.
  - intros m i Hi. split; [congruence|]. exists i. rewrite Hm. split; auto. intros. split; auto. lia.
  - eapply transfer_u64; eauto.
  - eapply shape_ata; [eapply transfer_shape; exact H|exact Hata].
Qed.

Lemma reach_transfer w prog from to mint auth s amt :
  reachable D0 w -> 0 <= amt -> ~ In auth controller_pdas ->
  okb (transfer_checked w prog from to mint auth s amt) = true ->
  reachable D0 (get (transfer_checked w prog from to mint auth s amt)).
Proof.
  intros H Ha Hn Hk. eapply reach_ext; [exact H|]. eapply transfer_external; [| |exact Ha|exact Hn|].
  - apply base_u64. exact (proj1 (reachable_inv D0 D0_ok _ H)).
  - exact (proj1 (reachable_ata D0 D0_ok _ H)).
  - apply okb_get, Hk.
Qed.
Lemma W10_reach : reachable D0 W10.
Proof.
  unfold W10, R10. apply reach_transfer; [exact W9_reach|lia| |vm_compute; reflexivity].
  unfold USER. cbn. unfold POOL_STATE_ID, LST_STATE_LIST_ID, DISABLE_POOL_AUTHORITY_LIST_ID,
      REBALANCE_RECORD_ID, PROTOCOL_FEE_ID. intuition lia.
Qed.
Lemma W11_reach : reachable D0 W11. Proof. reach W11 R11 W10_reach. Qed.
Lemma W12_reach : reachable D0 W12. Proof. reach W12 R12 W11_reach. Qed.
Lemma W13_reach : reachable D0 W13. Proof. reach W13 R13 W12_reach. Qed.
Lemma W14_reach : reachable D0 W14. Proof. reach W14 R14 W13_reach. Qed.
Lemma W15_reach : reachable D0 W15. Proof. reach W15 R15 W14_reach. Qed.
Lemma W16_reach : reachable D0 W16. Proof. reach W16 R16 W15_reach. Qed.
