(** C37: no controller call panics. C38: a call writes only accounts passed to it as writable. *)
From Coq Require Import ZArith List Bool Lia.
From Verif Require Import Base Ratio Calc State Controller Inversion ProcInv Spec CalcProofs InvProofs
  TokProofs AccessProofs ShapeProofs MoneyProofs Concrete ConcreteReach PropAccess.
Import ListNotations.
Open Scope Z_scope.

Definition np {A} (r : res A) : Prop := r <> Err Panic.
Lemma np_ok {A} (a : A) : np (Ok a). Proof. discriminate. Qed.
Lemma np_bind {A B} (m : res A) (f : A -> res B) :
  np m -> (forall a, m = Ok a -> np (f a)) -> np (bind m f).
Proof. unfold np. destruct m; cbn; intros H K; auto. congruence. Qed.
Lemma np_guard {A} b e (k : res A) : e <> Panic -> (b = true -> np k) -> np (guard b e k).
Proof. unfold np, guard. destruct b; intros; auto. congruence. Qed.
Lemma np_opt {A} e (o : option A) : e <> Panic -> np (of_option e o).
Proof. unfold np. destruct o; cbn; congruence. Qed.
Lemma np_opt_some {A} e (o : option A) : o <> None -> np (of_option e o).
Proof. unfold np. destruct o; cbn; congruence. Qed.
Lemma np_add e a b : e <> Panic -> np (checked_add e a b).
Proof. unfold np, checked_add. destruct (_ <=? _); congruence. Qed.
Lemma np_sub e a b : e <> Panic -> np (checked_sub e a b).
Proof. unfold np, checked_sub. destruct (_ <=? _); congruence. Qed.
Lemma np_range r : np (decode_range r).
Proof. unfold np, decode_range, of_ext. destruct r as [[a b]|]; cbn; try discriminate.
  unfold guard. destruct (_ && _); discriminate. Qed.
Lemma np_u64 r : np (decode_u64 r).
Proof. unfold np, decode_u64, of_ext. destruct r; cbn; try discriminate.
  unfold guard. destruct (u64b _); discriminate. Qed.
Lemma np_slice_to s n : np (slice_to s n).
Proof. unfold np, slice_to. destruct (_ <=? _); discriminate. Qed.
Lemma np_slice_from s n : np (slice_from s n).
Proof. unfold np, slice_from. destruct (_ <=? _); discriminate. Qed.
Lemma np_suffix s : np (cpi_from_suffix s).
Proof. unfold np. destruct s; discriminate. Qed.
Lemma np_floor a b c : np (floor_apply a b c).
Proof. unfold np, floor_apply. destruct (_ || _); try discriminate. destruct (_ <=? _); discriminate. Qed.
Lemma np_fee a b c : np (ceil_fee_charged a b c).
Proof. unfold np, ceil_fee_charged. destruct (_ <? _); try discriminate. destruct (_ || _); discriminate. Qed.
Lemma np_scan ixs m : np (scan_end_rebalance ixs m).
Proof. unfold np. induction ixs; cbn; try discriminate. destruct (is_end_rebalance_ix a m); [discriminate|auto]. Qed.

Ltac np1 :=
  match goal with
  | |- np (bind _ _) => apply np_bind; [|intros]
  | |- np (guard _ _ _) => apply np_guard; [discriminate|intros]
  | |- np (Ok _) => apply np_ok
  | |- np (Err _) => discriminate
  | |- np (of_option Panic _) => fail 1
  | |- np (sync_sol_value_unchecked _ _ _ _ _ _ _ _) => fail 1
  | |- np (of_option _ _) => apply np_opt; discriminate
  | |- np (checked_add _ _ _) => apply np_add; discriminate
  | |- np (checked_sub _ _ _) => apply np_sub; discriminate
  | |- np (decode_range _) => apply np_range
  | |- np (decode_u64 _) => apply np_u64
  | |- np (slice_to _ _) => apply np_slice_to
  | |- np (slice_from _ _) => apply np_slice_from
  | |- np (cpi_from_suffix _) => apply np_suffix
  | |- np (floor_apply _ _ _) => apply np_floor
  | |- np (ceil_bps_fee _ _) => apply np_fee
  | |- np (ceil_fee_charged _ _ _) => apply np_fee
  | |- np (scan_end_rebalance _ _) => apply np_scan
  | |- np (if ?b then _ else _) => destruct b
  | |- np (match ?x with _ => _ end) => destruct x
  | |- np (?f _) => unfold f
  | |- np (?f _ _) => unfold f
  | |- np (?f _ _ _) => unfold f
  | |- np (?f _ _ _ _) => unfold f
  | |- np (?f _ _ _ _ _) => unfold f
  | |- np (?f _ _ _ _ _ _) => unfold f
  | |- np (?f _ _ _ _ _ _ _) => unfold f
  | |- np (?f _ _ _ _ _ _ _ _) => unfold f
  | |- np (?f _ _ _ _ _ _ _ _ _) => unfold f
  | |- np (?f _ _ _ _ _ _ _ _ _ _) => unfold f
  | |- np (?f _ _ _ _ _ _ _ _ _ _ _) => unfold f
  end.

Lemma np_transfer w a b c d e f g : np (transfer_checked w a b c d e f g). Proof. repeat np1. Qed.
Lemma np_mint w a b c d e f : np (mint_to w a b c d e f). Proof. repeat np1. Qed.
Lemma np_burn w a b c d e f : np (burn w a b c d e f). Proof. repeat np1. Qed.
Lemma np_close w a b c d : np (close_token_account w a b c d). Proof. repeat np1. Qed.
Lemma np_verify_swap_cpis w L P s n m i j : np (verify_swap_cpis w L P s n m i j).
Proof. repeat np1. Qed.
Lemma np_verify_lp_cpis w L P s n i : np (verify_lp_cpis w L P s n i).
Proof. repeat np1. Qed.

(** The index is in range of the list held by [L]. *)
Definition has (w : World) (L : key) (i : Z) : Prop :=
  forall l, w_list w L = Some l -> nth_lst l i <> None.

Lemma has_list w L i l : w_list w L = Some l -> nth_lst l i <> None -> has w L i.
Proof. intros H1 H2 l' H. congruence. Qed.

Lemma np_sync E w P L R c m i : has w L i -> np (sync_sol_value_unchecked E w P L R c m i).
Proof.
  intros H. unfold sync_sol_value_unchecked. repeat np1. apply np_opt_some, H.
  unfold try_lst_state_list in *. now apply of_option_ok in H3.
Qed.
Lemma sync_has E w P L R c m i w' j :
  has w L j -> sync_sol_value_unchecked E w P L R c m i = Ok w' -> has w' L j.
Proof.
  intros H H1. apply sync_inv in H1. destruct H1 as (t & ps & l & ls & lo & hi & _ & _ & _ & _ & _ & Hl & _ & _ & _ & ->).
  intros l' Hl'. cbn in Hl'. rewrite upd_same in Hl'. injection Hl' as <-.
  specialize (H l Hl). unfold nth_lst in *. rewrite nth_error_Some in *. now rewrite replace_nth_length.
Qed.
Lemma ctl_has w w' L j : ctl_eq w w' -> has w L j -> has w' L j.
Proof. intros (_ & E & _) H l. rewrite E. apply H. Qed.

Section WithDerive.
Variable D : Derive.

Ltac idx := repeat (unf; inv_ok; match goal with
  | H : try_match_lst_mint_on_list _ _ _ = Ok _ |- _ => apply try_match_ok in H; destruct H
  | H : resolve_swap _ _ _ _ _ _ _ _ _ _ = Ok _ |- _ => unfold resolve_swap in H
  | H : resolve_liquidity _ _ _ _ _ _ _ _ _ = Ok _ |- _ => unfold resolve_liquidity in H
  | H : resolve_sync_sol_value _ _ _ _ _ = Ok _ |- _ => unfold resolve_sync_sol_value in H
  | H : resolve_disable_enable_lst_input _ _ _ _ = Ok _ |- _ => unfold resolve_disable_enable_lst_input in H
  | H : resolve_remove_lst _ _ _ _ _ _ _ = Ok _ |- _ => unfold resolve_remove_lst in H
  | H : resolve_set_sol_value_calculator _ _ _ _ _ _ = Ok _ |- _ => unfold resolve_set_sol_value_calculator in H
  | H : resolve_start_rebalance _ _ _ _ _ _ _ _ _ = Ok _ |- _ => unfold resolve_start_rebalance in H
  | H : resolve_end_rebalance _ _ _ _ _ _ = Ok _ |- _ => unfold resolve_end_rebalance in H
  end).
Ltac panic := apply np_opt_some; idx; unf; inv_ok; dedup; congruence.

Lemma np_verify_swap w accs n m i j : np (verify_swap D w accs n m i j).
Proof. unfold verify_swap. repeat np1. panic. Qed.
Lemma np_verify_liquidity w accs b n i : np (verify_liquidity D w accs b n i).
Proof. unfold verify_liquidity. repeat np1; panic. Qed.

Lemma verify_swap_has w accs n m i j A c : 0 <= n -> 0 <= m -> verify_swap D w accs n m i j = Ok (A, c) ->
  has w (mk (sa_lst_state_list A)) i /\ has w (mk (sa_lst_state_list A)) j.
Proof.
  intros Hn Hm H. destruct c as [[cs cd] cp]. apply verify_swap_inv in H as (ps & l & l1 & l2 & H); auto.
  unfold swap_facts in H. exs. rewrite H5. split; eapply has_list; eauto; congruence.
Qed.
Lemma verify_liquidity_has w accs b n i A c : verify_liquidity D w accs b n i = Ok (A, c) ->
  has w (mk (la_lst_state_list A)) i.
Proof.
  intros H. destruct c as [c cp]. apply verify_liquidity_inv in H as (ps & l & ls & H).
  unfold liq_facts in H. exs. rewrite H4. eapply has_list; eauto; congruence.
Qed.

Ltac chain := match goal with
  | H : has ?w ?L ?i |- has ?w ?L ?i => exact H
  | H : sync_sol_value_unchecked _ _ _ _ _ _ _ _ = Ok ?w |- has ?w _ _ => eapply sync_has; [|exact H]
  | H : transfer_checked _ _ _ _ _ _ _ _ = Ok ?w |- has ?w _ _ => eapply ctl_has; [exact (transfer_ctl _ _ _ _ _ _ _ _ _ H)|]
  | H : mint_to _ _ _ _ _ _ _ = Ok ?w |- has ?w _ _ => eapply ctl_has; [exact (mint_to_ctl _ _ _ _ _ _ _ _ H)|]
  | H : burn _ _ _ _ _ _ _ = Ok ?w |- has ?w _ _ => eapply ctl_has; [exact (burn_ctl _ _ _ _ _ _ _ _ H)|]
  end.
Ltac nps := first
  [ match goal with
    | |- np (transfer_checked _ _ _ _ _ _ _ _) => apply np_transfer
    | |- np (mint_to _ _ _ _ _ _ _) => apply np_mint
    | |- np (burn _ _ _ _ _ _ _) => apply np_burn
    | |- np (verify_swap _ _ _ _ _ _ _) => apply np_verify_swap
    | |- np (verify_liquidity _ _ _ _ _ _) => apply np_verify_liquidity
    end
  | match goal with
    | H : verify_swap _ _ _ _ _ _ _ = Ok _ |- _ => apply verify_swap_has in H; [destruct H|lia|lia]
    | H : verify_liquidity _ _ _ _ _ _ = Ok _ |- _ => apply verify_liquidity_has in H
    | H : _ * _ |- _ => destruct H
    end
  | np1
  | apply np_sync; unfold sync_src, sync_dst, sync_liq in *; repeat chain].

Lemma np_swap_in E w accs a : ix_wfb (SwapExactIn a) = true -> np (process_swap_exact_in D E w accs a).
Proof. intros Hw. wf Hw. unfold process_swap_exact_in. repeat nps. Qed.
Lemma np_swap_out E w accs a : ix_wfb (SwapExactOut a) = true -> np (process_swap_exact_out D E w accs a).
Proof. intros Hw. wf Hw. unfold process_swap_exact_out. repeat nps. Qed.
Lemma np_add_liq E w accs a : np (process_add_liquidity D E w accs a).
Proof. unfold process_add_liquidity. repeat nps. Qed.
Lemma np_rem_liq E w accs a : np (process_remove_liquidity D E w accs a).
Proof. unfold process_remove_liquidity. repeat nps. Qed.
Lemma np_sync_proc E w accs i : np (process_sync_sol_value D E w accs i).
Proof.
  unfold process_sync_sol_value. repeat np1. apply np_sync. idx.
  eapply has_list; [eassumption|congruence].
Qed.
Lemma np_set_input w accs i f : np (process_set_lst_input w accs i f).
Proof. unfold process_set_lst_input. repeat np1. panic. Qed.
Lemma np_add_lst w accs : np (process_add_lst D w accs).
Proof. unfold process_add_lst. repeat np1. Qed.
Lemma np_remove_lst w accs i : np (process_remove_lst D w accs i).
Proof. unfold process_remove_lst. repeat np1. panic. Qed.
Lemma np_set_calc E w accs i : np (process_set_sol_value_calculator D E w accs i).
Proof.
  unfold process_set_sol_value_calculator. repeat np1; [panic|]. apply np_sync.
  intros l0 Hl0. cbn in Hl0. idx. rewrite upd_same in Hl0. injection Hl0 as <-. unf. inv_ok.
  unfold nth_lst in *. apply nth_error_Some. rewrite replace_nth_length.
  apply nth_error_Some. congruence.
Qed.
Lemma np_start E C w accs a : np (process_start_rebalance D E C w accs a).
Proof.
  unfold process_start_rebalance. repeat nps; try panic; idx; eapply has_list; try eassumption; congruence.
Qed.
Lemma np_end E w accs : np (process_end_rebalance D E w accs).
Proof.
  unfold process_end_rebalance. repeat np1. apply np_sync. idx.
  intros l0 Hl0. cbn in Hl0. congruence.
Qed.

End WithDerive.

(** C37. No call to the controller panics: whatever the state, the accounts (aliased, missing, foreign),
    the arguments and the answers of the external programs, the call either succeeds or returns an error. *)
Theorem C37_no_panic D E C w accs ix : process D E C w accs ix <> Err Panic.
Proof.
  unfold process, guard. destruct (ix_wfb ix) eqn:Hw; [|discriminate].
  destruct ix;
    first [ apply np_sync_proc | apply (np_swap_in _ _ _ _ _ Hw) | apply (np_swap_out _ _ _ _ _ Hw)
          | apply np_add_liq | apply np_rem_liq | apply np_set_input | apply np_add_lst | apply np_remove_lst
          | apply np_set_calc | apply np_start | apply np_end | idtac ].
  all: match goal with |- ?x <> Err Panic => change (np x) end; repeat np1.
Qed.
(* the index checks matter: an index past the end is an error of the resolver, not a panic *)
Example C37_case :
  process D0 E0 C0 W5 sync_accs (SyncSolValue 7) = Err (Ctl InvalidLstIndex) /\
  process D0 E0 C0 W5 lst_input_accs (DisableLstInput 4294967295) = Err (Ctl InvalidLstIndex) /\
  sync_sol_value_unchecked E0 W5 POOL_STATE_ID LST_STATE_LIST_ID RB (mkCpi (ro CB) []) MB 7 = Err Panic.
Proof. repeat split; vm_compute; reflexivity. Qed.

(* ------------------------------------------------------------------ *)
(** Nothing about the account at [k] differs. *)
Definition same_at (k : key) (w w' : World) : Prop :=
  w_pool w' k = w_pool w k /\ w_list w' k = w_list w k /\ w_auth w' k = w_auth w k /\
  w_rec w' k = w_rec w k /\ w_tok w' k = w_tok w k /\ w_mint w' k = w_mint w k /\
  w_owner w' k = w_owner w k /\ w_exec w' k = w_exec w k.
Definition writes (ks : list key) (w w' : World) : Prop := forall k, ~ In k ks -> same_at k w w'.

Lemma writes_trans ks1 ks2 w1 w2 w3 : writes ks1 w1 w2 -> writes ks2 w2 w3 -> writes (ks1 ++ ks2) w1 w3.
Proof.
  intros H1 H2 k Hk. rewrite in_app_iff in Hk. specialize (H1 k). specialize (H2 k).
  unfold same_at in *. intuition congruence.
Qed.
Lemma writes_refl w : writes [] w w.
Proof. intros k _. unfold same_at. intuition. Qed.

Ltac frame := intros ? Hk; cbn [In] in Hk; unfold same_at; cbn; repeat rewrite upd_other by (intros ->; tauto);
  intuition.
Lemma sync_writes E w P L R c m i w' :
  sync_sol_value_unchecked E w P L R c m i = Ok w' -> writes [P; L] w w'.
Proof. intros H. apply sync_inv in H. destruct H as (? & ? & ? & ? & ? & ? & H). exs. subst. frame. Qed.
Lemma transfer_writes w p a b m au s x w' :
  transfer_checked w p a b m au s x = Ok w' -> writes [a; b] w w'.
Proof.
  intros H. apply transfer_inv in H. destruct H as (? & ? & ? & H). decompose [and or] H; subst; frame.
Qed.
Lemma mint_writes w p m t au s x w' : mint_to w p m t au s x = Ok w' -> writes [m; t] w w'.
Proof. intros H. apply mint_to_inv in H. destruct H as (? & ? & H). decompose [and] H; subst; frame. Qed.
Lemma burn_writes w p m f au s x w' : burn w p m f au s x = Ok w' -> writes [m; f] w w'.
Proof. intros H. apply burn_inv in H. destruct H as (? & ? & H). decompose [and] H; subst; frame. Qed.
Lemma close_writes w p a au s w' : close_token_account w p a au s = Ok w' -> writes [a] w w'.
Proof. intros H. apply close_inv in H. destruct H as (? & H). decompose [and] H; subst; frame. Qed.
Lemma ata_writes w a wa m p w' : create_ata_if_not_exist w a wa m p = Ok w' -> writes [a] w w'.
Proof. intros H. apply create_ata_if_inv in H. destruct H as [(? & H)|H]; decompose [and] H; subst; frame. Qed.
Lemma set_mint_auth_writes w p m c s n w' : set_mint_authority w p m c s n = Ok w' -> writes [m] w w'.
Proof. intros H. apply set_mint_auth_inv in H. destruct H as (? & H). decompose [and] H; subst; frame. Qed.
Lemma set_freeze_auth_writes w p m c s n w' : set_freeze_authority w p m c s n = Ok w' -> writes [m] w w'.
Proof. intros H. apply set_freeze_auth_inv in H. destruct H as (? & H). decompose [and] H; subst; frame. Qed.
Lemma put_pool_writes w k v : writes [k] w (put_pool w k v). Proof. frame. Qed.
Lemma put_list_writes w k v : writes [k] w (put_list w k v). Proof. frame. Qed.
Lemma put_auth_writes w k v : writes [k] w (put_auth w k v). Proof. frame. Qed.
Lemma put_mint_writes w k v : writes [k] w (put_mint w k v). Proof. frame. Qed.
Lemma put_rec_writes w k v : writes [k] w (put_rec w k v). Proof. frame. Qed.

Lemma writes_use ks w w' (accs : list Meta) k :
  ~ passed_writable accs k -> writes ks w w' -> Forall (passed_writable accs) ks -> same_at k w w'.
Proof. intros N H F. apply H. intros Hin. rewrite Forall_forall in F. auto. Qed.
Lemma same_at_trans k w1 w2 w3 : same_at k w1 w2 -> same_at k w2 w3 -> same_at k w1 w3.
Proof. unfold same_at. intuition congruence. Qed.

(** Turn one step of a processor's run, backwards from the final world, into [same_at]. *)
Ltac pw := repeat (apply Forall_nil || apply Forall_cons);
  match goal with
  | H : is_writable ?m = true |- passed_writable _ _ =>
      exists m; split; [cbn; tauto|split; [exact H|solve [assumption|reflexivity|congruence]]]
  end.
Ltac wstep := match goal with
  | |- same_at _ ?w ?w => repeat split; reflexivity
  | |- same_at _ _ (put_pool ?v _ _) => eapply same_at_trans with (w2 := v);
        [|eapply writes_use; [eassumption|apply put_pool_writes|pw]]
  | |- same_at _ _ (put_list ?v _ _) => eapply same_at_trans with (w2 := v);
        [|eapply writes_use; [eassumption|apply put_list_writes|pw]]
  | |- same_at _ _ (put_auth ?v _ _) => eapply same_at_trans with (w2 := v);
        [|eapply writes_use; [eassumption|apply put_auth_writes|pw]]
  | |- same_at _ _ (put_mint ?v _ _) => eapply same_at_trans with (w2 := v);
        [|eapply writes_use; [eassumption|apply put_mint_writes|pw]]
  | |- same_at _ _ (put_rec ?v _ _) => eapply same_at_trans with (w2 := v);
        [|eapply writes_use; [eassumption|apply put_rec_writes|pw]]
  | H : sync_sol_value_unchecked _ ?v _ _ _ _ _ _ = Ok ?u |- same_at _ _ ?u => eapply same_at_trans with (w2 := v);
        [|eapply writes_use; [eassumption|eapply sync_writes; exact H|pw]]
  | H : transfer_checked ?v _ _ _ _ _ _ _ = Ok ?u |- same_at _ _ ?u => eapply same_at_trans with (w2 := v);
        [|eapply writes_use; [eassumption|eapply transfer_writes; exact H|pw]]
  | H : mint_to ?v _ _ _ _ _ _ = Ok ?u |- same_at _ _ ?u => eapply same_at_trans with (w2 := v);
        [|eapply writes_use; [eassumption|eapply mint_writes; exact H|pw]]
  | H : burn ?v _ _ _ _ _ _ = Ok ?u |- same_at _ _ ?u => eapply same_at_trans with (w2 := v);
        [|eapply writes_use; [eassumption|eapply burn_writes; exact H|pw]]
  | H : close_token_account ?v _ _ _ _ = Ok ?u |- same_at _ _ ?u => eapply same_at_trans with (w2 := v);
        [|eapply writes_use; [eassumption|eapply close_writes; exact H|pw]]
  | H : create_ata_if_not_exist ?v _ _ _ _ = Ok ?u |- same_at _ _ ?u => eapply same_at_trans with (w2 := v);
        [|eapply writes_use; [eassumption|eapply ata_writes; exact H|pw]]
  | H : set_mint_authority ?v _ _ _ _ _ = Ok ?u |- same_at _ _ ?u => eapply same_at_trans with (w2 := v);
        [|eapply writes_use; [eassumption|eapply set_mint_auth_writes; exact H|pw]]
  | H : set_freeze_authority ?v _ _ _ _ _ = Ok ?u |- same_at _ _ ?u => eapply same_at_trans with (w2 := v);
        [|eapply writes_use; [eassumption|eapply set_freeze_auth_writes; exact H|pw]]
  end.

(** C38. A successful call changes nothing about an account that was not passed to it as writable. *)
Theorem C38_footprint D E C w accs ix w' k :
  process D E C w accs ix = Ok w' -> ~ passed_writable accs k -> same_at k w w'.
Proof.
  intros H Hk. unfold process in H. apply guard_ok in H as (Hwf & H).
  destruct ix.
  - apply sync_proc_inv in H. exs. subst accs. repeat wstep.
  - apply swap_exact_in_inv in H; auto. unfold swap_facts, settle_facts, sync_src, sync_dst in H. exs. exs. subst accs.
    cbn [forallb] in *. inv_ok. repeat wstep.
  - apply swap_exact_out_inv in H; auto. unfold swap_facts, settle_facts, sync_src, sync_dst in H. exs. exs. subst accs.
    cbn [forallb] in *. inv_ok. repeat wstep.
  - apply add_liquidity_inv in H; auto. unfold liq_facts, sync_liq in H. exs. exs. subst accs.
    cbn [forallb] in *. inv_ok. repeat wstep.
  - apply remove_liquidity_inv in H; auto. unfold liq_facts, sync_liq in H. exs. exs. subst accs.
    cbn [forallb] in *. inv_ok. repeat wstep.
  - apply set_lst_input_inv in H. exs. subst. repeat wstep.
  - apply set_lst_input_inv in H. exs. subst. repeat wstep.
  - apply add_lst_inv in H. exs. subst. repeat wstep.
  - apply remove_lst_inv in H. exs. subst. repeat wstep.
  - apply set_calculator_inv in H. exs. subst. repeat wstep.
  - apply set_admin_inv in H. exs. subst. repeat wstep.
  - apply set_protocol_fee_inv in H. exs. subst. repeat wstep.
  - apply set_beneficiary_inv in H. exs. subst. repeat wstep.
  - apply set_pricing_inv in H. exs. subst. repeat wstep.
  - apply withdraw_inv in H. exs. subst. repeat wstep.
  - apply add_auth_inv in H. exs. subst. repeat wstep.
  - apply remove_auth_inv in H. exs. subst. repeat wstep.
  - apply disable_pool_inv in H. exs. subst. repeat wstep.
  - apply enable_pool_inv in H. exs. subst. repeat wstep.
  - apply start_rebalance_inv in H. exs. subst. cbn [forallb] in *. inv_ok. repeat wstep.
  - apply end_rebalance_inv in H. exs. subst. repeat wstep.
  - apply set_rebalance_authority_inv in H. exs. subst. repeat wstep.
  - apply initialize_inv in H. exs. subst. repeat wstep.
Qed.
(* the flags are demanded: with a reserve passed read-only the swap is refused *)
Example C38_case :
  okb R6 = true /\ ~ passed_writable swap_accs MA /\
  process D0 E0 C0 W5 (firstn 10 swap_accs ++ [ro RA] ++ skipn 11 swap_accs) (SwapExactIn swap_in_args)
    = Err PrivilegeErr.
Proof.
  split; [vm_compute; reflexivity|]. split; [|vm_compute; reflexivity].
  intros (a & Hin & Hw & Hk). cbn in Hin.
  repeat destruct Hin as [<-|Hin]; try discriminate; tauto.
Qed.
