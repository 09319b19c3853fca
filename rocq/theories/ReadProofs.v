(** Every step of every instruction reads passed accounts only. *)
From Coq Require Import ZArith List Bool Lia.
From Verif Require Import Base Calc State Controller ReadSpec.
Import ListNotations.
Open Scope Z_scope.

Definition rel {A} (Q : A -> A -> Prop) (r r' : res A) : Prop :=
  match r, r' with Ok a, Ok b => Q a b | Err e, Err e' => e = e' | _, _ => False end.
Definition eqg {A} (G : A -> Prop) (a b : A) : Prop := a = b /\ G a.
Lemma rel_bind {A B} (Q : A -> A -> Prop) (R : B -> B -> Prop) m m' f f' :
  rel Q m m' -> (forall a a', Q a a' -> rel R (f a) (f' a')) -> rel R (bind m f) (bind m' f').
Proof. destruct m, m'; cbn; intros H G; auto; contradiction. Qed.
Lemma rel_eq {A} (m m' : res A) : m = m' -> rel eq m m'.
Proof. intros ->. destruct m'; cbn; auto. Qed.
Lemma rel_eq_inv {A} (m m' : res A) : rel eq m m' -> m = m'.
Proof. destruct m, m'; cbn; try contradiction; congruence. Qed.
Lemma rel_guard {A} (R : A -> A -> Prop) b b' e r r' : b = b' -> rel R r r' -> rel R (guard b e r) (guard b' e r').
Proof. intros -> H. unfold guard. destruct b'; cbn; auto. Qed.
Lemma rel_err {A} (R : A -> A -> Prop) e : rel R (Err e) (Err e).
Proof. reflexivity. Qed.
Lemma rel_weak {A} (Q R : A -> A -> Prop) m m' : (forall a b, Q a b -> R a b) -> rel Q m m' -> rel R m m'.
Proof. destruct m, m'; cbn; auto. Qed.

Lemma incl_firstn_ex {A} n (l : list A) x : In x (firstn n l) -> In x l.
Proof. intros H. rewrite <- (firstn_skipn n l). apply in_or_app. auto. Qed.
Lemma incl_skipn_ex {A} n (l : list A) x : In x (skipn n l) -> In x l.
Proof. intros H. rewrite <- (firstn_skipn n l). apply in_or_app. auto. Qed.

(** Two sets of programs that answer the same when the accounts [P] are the same and only those are asked about. *)
Definition asked_alike (E E' : Env) (P : key -> Prop) : Prop := forall w w' accs, agree_on P w w' -> (forall m, In m accs -> P (mk m)) ->
  (forall p m x, P p -> P m ->
     e_lst_to_sol E w p m accs x = e_lst_to_sol E' w' p m accs x /\ e_sol_to_lst E w p m accs x = e_sol_to_lst E' w' p m accs x) /\
  (forall p i o a x, P p -> P i -> P o ->
     e_price_exact_in E w p i o accs a x = e_price_exact_in E' w' p i o accs a x /\
     e_price_exact_out E w p i o accs a x = e_price_exact_out E' w' p i o accs a x) /\
  (forall p m a x, P p -> P m ->
     e_price_lp_to_mint E w p m accs a x = e_price_lp_to_mint E' w' p m accs a x /\
     e_price_lp_to_redeem E w p m accs a x = e_price_lp_to_redeem E' w' p m accs a x).
Lemma sim_handed (P : key -> Prop) w w' ks accs : agree_on P w w' -> (forall k, In k ks -> P k) -> (forall m, In m accs -> P (mk m)) ->
  agree_on (handed ks accs) w w'.
Proof.
  intros H H1 H2 k [Hk|Hk]; apply H; auto. unfold passed in Hk. apply in_map_iff in Hk as (m & <- & Hm). auto.
Qed.
Lemma reads_asked E P : reads_only_handed E -> asked_alike E E P.
Proof.
  intros HE w w' accs H Ha. destruct (HE w w' accs) as (H1 & H2 & H3). split; [|split]; intros; [apply H1|apply H2|apply H3];
    (apply (sim_handed P); [exact H| |exact Ha]; intros k Hk; cbn in Hk; intuition (subst; auto)).
Qed.

Section Reads.
Context (D : Derive) (E E' : Env) (P : key -> Prop) (HE : asked_alike E E' P).
Notation sim := (agree_on P).

Lemma upd_agree_on {A} (f g : key -> A) k v x : f x = g x -> upd f k v x = upd g k v x.
Proof. unfold upd. destruct (x =? k); auto. Qed.
Lemma sim_pool w w' k v : sim w w' -> sim (put_pool w k v) (put_pool w' k v).
Proof. intros H x Hx. destruct (H x Hx) as (?&?&?&?&?&?&?&?). repeat split; cbn; auto using upd_agree_on. Qed.
Lemma sim_list w w' k v : sim w w' -> sim (put_list w k v) (put_list w' k v).
Proof. intros H x Hx. destruct (H x Hx) as (?&?&?&?&?&?&?&?). repeat split; cbn; auto using upd_agree_on. Qed.
Lemma sim_auth w w' k v : sim w w' -> sim (put_auth w k v) (put_auth w' k v).
Proof. intros H x Hx. destruct (H x Hx) as (?&?&?&?&?&?&?&?). repeat split; cbn; auto using upd_agree_on. Qed.
Lemma sim_rec w w' k v : sim w w' -> sim (put_rec w k v) (put_rec w' k v).
Proof. intros H x Hx. destruct (H x Hx) as (?&?&?&?&?&?&?&?). repeat split; cbn; auto using upd_agree_on. Qed.
Lemma sim_tok w w' k v : sim w w' -> sim (put_tok w k v) (put_tok w' k v).
Proof. intros H x Hx. destruct (H x Hx) as (?&?&?&?&?&?&?&?). repeat split; cbn; auto using upd_agree_on. Qed.
Lemma sim_mint w w' k v : sim w w' -> sim (put_mint w k v) (put_mint w' k v).
Proof. intros H x Hx. destruct (H x Hx) as (?&?&?&?&?&?&?&?). repeat split; cbn; auto using upd_agree_on. Qed.
Lemma sim_owner w w' k v : sim w w' -> sim (put_owner w k v) (put_owner w' k v).
Proof. intros H x Hx. destruct (H x Hx) as (?&?&?&?&?&?&?&?). repeat split; cbn; auto using upd_agree_on. Qed.

Lemma at_pool w w' k : sim w w' -> P k -> w_pool w k = w_pool w' k. Proof. intros H Hk. apply (H k Hk). Qed.
Lemma at_list w w' k : sim w w' -> P k -> w_list w k = w_list w' k. Proof. intros H Hk. apply (H k Hk). Qed.
Lemma at_auth w w' k : sim w w' -> P k -> w_auth w k = w_auth w' k. Proof. intros H Hk. apply (H k Hk). Qed.
Lemma at_rec w w' k : sim w w' -> P k -> w_rec w k = w_rec w' k. Proof. intros H Hk. apply (H k Hk). Qed.
Lemma at_tok w w' k : sim w w' -> P k -> w_tok w k = w_tok w' k. Proof. intros H Hk. apply (H k Hk). Qed.
Lemma at_mint w w' k : sim w w' -> P k -> w_mint w k = w_mint w' k. Proof. intros H Hk. apply (H k Hk). Qed.
Lemma at_owner w w' k : sim w w' -> P k -> w_owner w k = w_owner w' k. Proof. intros H Hk. apply (H k Hk). Qed.
Lemma at_exec w w' k : sim w w' -> P k -> w_exec w k = w_exec w' k. Proof. intros H Hk. apply (H k Hk). Qed.

Ltac rd := repeat match goal with
  | H : sim ?w ?w' |- context [w_pool ?w ?k] => rewrite (at_pool w w' k H) by (solve [auto])
  | H : sim ?w ?w' |- context [w_list ?w ?k] => rewrite (at_list w w' k H) by (solve [auto])
  | H : sim ?w ?w' |- context [w_auth ?w ?k] => rewrite (at_auth w w' k H) by (solve [auto])
  | H : sim ?w ?w' |- context [w_rec ?w ?k] => rewrite (at_rec w w' k H) by (solve [auto])
  | H : sim ?w ?w' |- context [w_tok ?w ?k] => rewrite (at_tok w w' k H) by (solve [auto])
  | H : sim ?w ?w' |- context [w_mint ?w ?k] => rewrite (at_mint w w' k H) by (solve [auto])
  | H : sim ?w ?w' |- context [w_owner ?w ?k] => rewrite (at_owner w w' k H) by (solve [auto])
  | H : sim ?w ?w' |- context [w_exec ?w ?k] => rewrite (at_exec w w' k H) by (solve [auto])
  end.
Hint Resolve sim_pool sim_list sim_auth sim_rec sim_tok sim_mint sim_owner : core.

(** One step through a pair of programs that differ only in the world. *)
Ltac step := first
  [ apply rel_err
  | match goal with |- rel _ (guard _ _ _) (guard _ _ _) => apply rel_guard; [rd; reflexivity|] end
  | match goal with |- rel _ (bind ?m _) (bind ?m _) => apply (rel_bind eq); [apply rel_eq; reflexivity|intros ? ? <-] end
  | match goal with |- rel _ (bind (of_option ?e ?a) _) (bind (of_option ?e ?b) _) =>
      apply (rel_bind eq); [apply rel_eq; rd; reflexivity|intros ? ? <-] end ].

Lemma rel_transfer w w' prog a b m au s n : sim w w' -> P a -> P b -> P m ->
  rel sim (transfer_checked w prog a b m au s n) (transfer_checked w' prog a b m au s n).
Proof.
  intros H Ha Hb Hm. unfold transfer_checked. repeat step. destruct (a =? b); [exact H|]. repeat step. cbn. auto.
Qed.
Lemma rel_mint_to w w' prog m t au s n : sim w w' -> P m -> P t -> rel sim (mint_to w prog m t au s n) (mint_to w' prog m t au s n).
Proof. intros H Hm Ht. unfold mint_to. repeat step. cbn. auto. Qed.
Lemma rel_burn w w' prog m t au s n : sim w w' -> P m -> P t -> rel sim (burn w prog m t au s n) (burn w' prog m t au s n).
Proof. intros H Hm Ht. unfold burn. repeat step. cbn. auto. Qed.
Lemma rel_close w w' prog a au s : sim w w' -> P a -> rel sim (close_token_account w prog a au s) (close_token_account w' prog a au s).
Proof. intros H Hm. unfold close_token_account. repeat step. cbn. auto. Qed.
Lemma rel_setm w w' prog m c s n : sim w w' -> P m -> rel sim (set_mint_authority w prog m c s n) (set_mint_authority w' prog m c s n).
Proof. intros H Hm. unfold set_mint_authority. repeat step. cbn. auto. Qed.
Lemma rel_setf w w' prog m c s n : sim w w' -> P m -> rel sim (set_freeze_authority w prog m c s n) (set_freeze_authority w' prog m c s n).
Proof. intros H Hm. unfold set_freeze_authority. repeat step. cbn. auto. Qed.
Lemma rel_ata w w' a wa m prog : sim w w' -> P a -> P m -> rel sim (create_ata_account w a wa m prog) (create_ata_account w' a wa m prog).
Proof.
  intros H Ha Hm. unfold create_ata_account. repeat step. rd. destruct (w_tok w' a); [apply rel_err|]. destruct (w_mint w' m); [|apply rel_err].
  repeat step. cbn. auto.
Qed.
Lemma rel_ata_if w w' a wa m prog : sim w w' -> P a -> P m ->
  rel sim (create_ata_if_not_exist w a wa m prog) (create_ata_if_not_exist w' a wa m prog).
Proof.
  intros H Ha Hm. unfold create_ata_if_not_exist. rd. destruct (w_tok w' a); [apply rel_guard; auto|apply rel_ata; auto].
Qed.

Lemma rel_pool w w' k : sim w w' -> P k -> try_pool_state w k = try_pool_state w' k.
Proof. intros. unfold try_pool_state. rd. reflexivity. Qed.
Lemma rel_lst w w' k : sim w w' -> P k -> try_lst_state_list w k = try_lst_state_list w' k.
Proof. intros. unfold try_lst_state_list. rd. reflexivity. Qed.
Lemma rel_au w w' k : sim w w' -> P k -> try_disable_pool_authority_list w k = try_disable_pool_authority_list w' k.
Proof. intros. unfold try_disable_pool_authority_list. rd. reflexivity. Qed.
Lemma rel_rr w w' k : sim w w' -> P k -> try_rebalance_record w k = try_rebalance_record w' k.
Proof. intros. unfold try_rebalance_record. rd. reflexivity. Qed.
Lemma rel_bal w w' k : sim w w' -> P k -> token_account_balance w k = token_account_balance w' k.
Proof. intros. unfold token_account_balance. rd. reflexivity. Qed.
Lemma rel_tm w w' k : sim w w' -> P k -> token_account_mint w k = token_account_mint w' k.
Proof. intros. unfold token_account_mint. rd. reflexivity. Qed.
Lemma rel_sup w w' k : sim w w' -> P k -> mint_supply w k = mint_supply w' k.
Proof. intros. unfold mint_supply. rd. reflexivity. Qed.
Lemma rel_field {A} w w' k (f : PoolState -> A) : sim w w' -> P k -> pool_field w k f = pool_field w' k f.
Proof. intros. unfold pool_field. rewrite (rel_pool w w'); auto. Qed.
Lemma rel_prog w w' k e : sim w w' -> P k -> verify_is_program w k e = verify_is_program w' k e.
Proof. intros. unfold verify_is_program. rd. reflexivity. Qed.
Lemma rel_22 w w' k : sim w w' -> P k -> verify_tokenkeg_or_22_mint w k = verify_tokenkeg_or_22_mint w' k.
Proof. intros. unfold verify_tokenkeg_or_22_mint. rewrite (rel_sup w w') by auto. rd. reflexivity. Qed.
Lemma rel_dis w w' s ps k : sim w w' -> P k ->
  verify_admin_or_disable_pool_authority w s ps k = verify_admin_or_disable_pool_authority w' s ps k.
Proof. intros. unfold verify_admin_or_disable_pool_authority. rewrite (rel_au w w'); auto. Qed.

Definition cgood (c : Cpi) : Prop := P (mk (cpi_prog c)) /\ forall m, In m (cpi_accs c) -> P (mk m).
Definition allP (l : list Meta) : Prop := forall m, In m l -> P (mk m).
Lemma rel_suffix s : allP s -> rel (eqg cgood) (cpi_from_suffix s) (cpi_from_suffix s).
Proof. intros H. destruct s as [|p r]; [reflexivity|]. cbn. split; [reflexivity|]. split; [apply H; left; reflexivity|]. intros m Hm. apply H. right. exact Hm. Qed.
Lemma rel_to s n : allP s -> rel (eqg allP) (slice_to s n) (slice_to s n).
Proof. intros H. unfold slice_to. destruct (_ <=? _); [|reflexivity]. split; [reflexivity|]. intros m Hm. apply H. eapply incl_firstn_ex. exact Hm. Qed.
Lemma rel_from s n : allP s -> rel (eqg allP) (slice_from s n) (slice_from s n).
Proof. intros H. unfold slice_from. destruct (_ <=? _); [|reflexivity]. split; [reflexivity|]. intros m Hm. apply H. eapply incl_skipn_ex. exact Hm. Qed.
Lemma rel_l2s w w' c m x : sim w w' -> cgood c -> P m -> invoke_lst_to_sol E w c m x = invoke_lst_to_sol E' w' c m x.
Proof.
  intros H (Hp & Hc) Hm. unfold invoke_lst_to_sol. destruct (HE w w' (cpi_accs c) H Hc) as (H1 & _).
  rewrite (proj1 (H1 (mk (cpi_prog c)) m x Hp Hm)). reflexivity.
Qed.
Lemma rel_s2l w w' c m x : sim w w' -> cgood c -> P m -> invoke_sol_to_lst E w c m x = invoke_sol_to_lst E' w' c m x.
Proof.
  intros H (Hp & Hc) Hm. unfold invoke_sol_to_lst. destruct (HE w w' (cpi_accs c) H Hc) as (H1 & _).
  rewrite (proj2 (H1 (mk (cpi_prog c)) m x Hp Hm)). reflexivity.
Qed.
Lemma rel_pin w w' c i o a x : sim w w' -> cgood c -> P i -> P o -> invoke_price_exact_in E w c i o a x = invoke_price_exact_in E' w' c i o a x.
Proof.
  intros H (Hp & Hc) Hi Ho. unfold invoke_price_exact_in. destruct (HE w w' (cpi_accs c) H Hc) as (_ & H1 & _).
  rewrite (proj1 (H1 (mk (cpi_prog c)) i o a x Hp Hi Ho)). reflexivity.
Qed.
Lemma rel_pout w w' c i o a x : sim w w' -> cgood c -> P i -> P o -> invoke_price_exact_out E w c i o a x = invoke_price_exact_out E' w' c i o a x.
Proof.
  intros H (Hp & Hc) Hi Ho. unfold invoke_price_exact_out. destruct (HE w w' (cpi_accs c) H Hc) as (_ & H1 & _).
  rewrite (proj2 (H1 (mk (cpi_prog c)) i o a x Hp Hi Ho)). reflexivity.
Qed.
Lemma rel_pmint w w' c m a x : sim w w' -> cgood c -> P m -> invoke_price_lp_to_mint E w c m a x = invoke_price_lp_to_mint E' w' c m a x.
Proof.
  intros H (Hp & Hc) Hm. unfold invoke_price_lp_to_mint. destruct (HE w w' (cpi_accs c) H Hc) as (_ & _ & H1).
  rewrite (proj1 (H1 (mk (cpi_prog c)) m a x Hp Hm)). reflexivity.
Qed.
Lemma rel_pred w w' c m a x : sim w w' -> cgood c -> P m -> invoke_price_lp_to_redeem E w c m a x = invoke_price_lp_to_redeem E' w' c m a x.
Proof.
  intros H (Hp & Hc) Hm. unfold invoke_price_lp_to_redeem. destruct (HE w w' (cpi_accs c) H Hc) as (_ & _ & H1).
  rewrite (proj2 (H1 (mk (cpi_prog c)) m a x Hp Hm)). reflexivity.
Qed.
Hint Resolve rel_pool rel_lst rel_au rel_rr rel_bal rel_tm rel_sup rel_field rel_prog rel_22 rel_dis rel_l2s rel_s2l rel_pin rel_pout rel_pmint rel_pred : reads.
Hint Resolve rel_transfer rel_mint_to rel_burn rel_close rel_setm rel_setf rel_ata rel_ata_if : moves.

Ltac pgood := solve [auto | match goal with H : allP _ |- P _ => apply H; cbn [In]; auto 20 end].
(** A step of any kind. *)
Ltac go := first
  [ step
  | match goal with |- rel _ (verify_keys_privs _ _ _ _ _) (verify_keys_privs _ _ _ _ _) => unfold verify_keys_privs; rd end
  | match goal with |- rel _ (check_pool_key _ _) (check_pool_key _ _) => unfold check_pool_key end
  | match goal with |- rel _ (check_list_key _ _) (check_list_key _ _) => unfold check_list_key end
  | match goal with |- rel _ (let '(_, _) := ?p in _) (let '(_, _) := ?p in _) => destruct p end
  | match goal with |- rel _ (bind ?m _) (bind ?m' _) => apply (rel_bind eq); [apply rel_eq; solve [auto with reads|rd; reflexivity]|intros ? ? <-] end
  | match goal with |- rel _ (bind ?m _) (bind ?m' _) => apply (rel_bind (agree_on P)); [solve [auto with moves]|intros ? ? ?] end ].

Lemma rel_sync w w' pa la ra c m i : sim w w' -> P pa -> P la -> P ra -> cgood c -> P m ->
  rel sim (sync_sol_value_unchecked E w pa la ra c m i) (sync_sol_value_unchecked E' w' pa la ra c m i).
Proof. intros H H1 H2 H3 H4 H5. unfold sync_sol_value_unchecked. repeat go. cbn. auto. Qed.
Hint Resolve rel_sync : moves.

Lemma rel_calc w w' la s i : sim w w' -> P la -> allP s ->
  rel (eqg cgood) (verify_lst_sol_val_calc_cpi w la s i) (verify_lst_sol_val_calc_cpi w' la s i).
Proof.
  intros H Hl Hs. unfold verify_lst_sol_val_calc_cpi. eapply rel_bind; [apply rel_suffix; exact Hs|]. intros c ? (<- & Hc). repeat go. cbn. split; auto.
Qed.
Lemma rel_pr w w' pa s : sim w w' -> P pa -> allP s -> rel (eqg cgood) (verify_pricing_cpi w pa s) (verify_pricing_cpi w' pa s).
Proof.
  intros H Hl Hs. unfold verify_pricing_cpi. eapply rel_bind; [apply rel_suffix; exact Hs|]. intros c ? (<- & Hc). repeat go. cbn. split; auto.
Qed.
Lemma rel_two w w' la s n i j : sim w w' -> P la -> allP s ->
  rel (eqg (fun p => cgood (fst p) /\ cgood (snd p))) (verify_src_dst_lst_sol_val_calc_cpis w la s n i j) (verify_src_dst_lst_sol_val_calc_cpis w' la s n i j).
Proof.
  intros H Hl Hs. unfold verify_src_dst_lst_sol_val_calc_cpis. eapply rel_bind; [apply rel_to; exact Hs|]. intros s1 ? (<- & H1).
  eapply rel_bind; [apply rel_calc; eassumption|]. intros c1 ? (<- & G1). eapply rel_bind; [apply rel_from; exact Hs|]. intros s2 ? (<- & H2).
  eapply rel_bind; [apply rel_calc; eassumption|]. intros c2 ? (<- & G2). cbn. split; auto.
Qed.
Lemma rel_lp w w' la pa s n i : sim w w' -> P la -> P pa -> allP s ->
  rel (eqg (fun p => cgood (fst p) /\ cgood (snd p))) (verify_lp_cpis w la pa s n i) (verify_lp_cpis w' la pa s n i).
Proof.
  intros H Hl Hp Hs. unfold verify_lp_cpis. eapply rel_bind; [apply rel_to; exact Hs|]. intros s1 ? (<- & H1).
  eapply rel_bind; [apply rel_calc; eassumption|]. intros c1 ? (<- & G1). eapply rel_bind; [apply rel_from; exact Hs|]. intros s2 ? (<- & H2).
  eapply rel_bind; [apply rel_pr; eassumption|]. intros c2 ? (<- & G2). cbn. split; auto.
Qed.
Lemma rel_sw w w' la pa s n m i j : sim w w' -> P la -> P pa -> allP s ->
  rel (eqg (fun p => cgood (fst (fst p)) /\ cgood (snd (fst p)) /\ cgood (snd p))) (verify_swap_cpis w la pa s n m i j) (verify_swap_cpis w' la pa s n m i j).
Proof.
  intros H Hl Hp Hs. unfold verify_swap_cpis. eapply rel_bind; [apply rel_to; exact Hs|]. intros s1 ? (<- & H1).
  eapply rel_bind; [apply rel_two; eassumption|]. intros [c1 c2] ? (<- & G1 & G2). eapply rel_bind; [apply rel_from; exact Hs|]. intros s2 ? (<- & H2).
  eapply rel_bind; [apply rel_pr; eassumption|]. intros c3 ? (<- & G3). cbn. split; auto.
Qed.
Definition sgood (A : SwapAccounts) : Prop := P (mk (sa_signer A)) /\ P (mk (sa_src_lst_mint A)) /\ P (mk (sa_dst_lst_mint A)) /\ P (mk (sa_src_lst_acc A)) /\
  P (mk (sa_dst_lst_acc A)) /\ P (mk (sa_protocol_fee_accumulator A)) /\ P (mk (sa_src_lst_token_program A)) /\ P (mk (sa_dst_lst_token_program A)) /\
  P (mk (sa_pool_state A)) /\ P (mk (sa_lst_state_list A)) /\ P (mk (sa_src_pool_reserves A)) /\ P (mk (sa_dst_pool_reserves A)).
Definition lgood (A : LiqAccounts) : Prop := P (mk (la_signer A)) /\ P (mk (la_lst_mint A)) /\ P (mk (la_lst_acc A)) /\ P (mk (la_lp_acc A)) /\
  P (mk (la_lp_token_mint A)) /\ P (mk (la_protocol_fee_accumulator A)) /\ P (mk (la_lst_token_program A)) /\ P (mk (la_lp_token_program A)) /\
  P (mk (la_pool_state A)) /\ P (mk (la_lst_state_list A)) /\ P (mk (la_pool_reserves A)).

Lemma rel_rsync w w' i la m : sim w w' -> P la -> P m -> resolve_sync_sol_value D w i la m = resolve_sync_sol_value D w' i la m.
Proof. intros H H1 H2. apply rel_eq_inv. unfold resolve_sync_sol_value. rd. repeat go; first [reflexivity|apply rel_eq; reflexivity]. Qed.
Lemma rel_rswap w w' i j s a b m1 m2 la : sim w w' -> P la -> P m1 -> P m2 -> resolve_swap D w i j s a b m1 m2 la = resolve_swap D w' i j s a b m1 m2 la.
Proof. intros H H1 H2 H3. apply rel_eq_inv. unfold resolve_swap. rd. repeat go; first [reflexivity|apply rel_eq; reflexivity]. Qed.
Lemma rel_rliq w w' i s a b pa la m : sim w w' -> P pa -> P la -> P m -> resolve_liquidity D w i s a b pa la m = resolve_liquidity D w' i s a b pa la m.
Proof. intros H H1 H2 H3. apply rel_eq_inv. unfold resolve_liquidity. rd. repeat go; first [reflexivity|apply rel_eq; reflexivity]. Qed.
Lemma allP_cons a l : allP (a :: l) -> P (mk a) /\ allP l.
Proof. intros H. split; [apply H; left; reflexivity|intros m Hm; apply H; right; exact Hm]. Qed.

Lemma rel_rset w w' i pa la : sim w w' -> P pa -> P la -> resolve_disable_enable_lst_input w i pa la = resolve_disable_enable_lst_input w' i pa la.
Proof. intros H H1 H2. apply rel_eq_inv. unfold resolve_disable_enable_lst_input. repeat go; first [reflexivity|apply rel_eq; reflexivity]. Qed.
Lemma rel_radd w w' y c pa m : sim w w' -> P pa -> P m -> resolve_add_lst D w y c pa m = resolve_add_lst D w' y c pa m.
Proof. intros H H1 H2. apply rel_eq_inv. unfold resolve_add_lst. rd. repeat go; first [reflexivity|apply rel_eq; reflexivity]. Qed.
Lemma rel_rrem w w' i r pa la m : sim w w' -> P pa -> P la -> P m -> resolve_remove_lst D w i r pa la m = resolve_remove_lst D w' i r pa la m.
Proof. intros H H1 H2 H3. apply rel_eq_inv. unfold resolve_remove_lst. rd. repeat go; first [reflexivity|apply rel_eq; reflexivity]. Qed.
Lemma rel_rcalc w w' i pa la m : sim w w' -> P pa -> P la -> P m ->
  resolve_set_sol_value_calculator D w i pa la m = resolve_set_sol_value_calculator D w' i pa la m.
Proof. intros H H1 H2 H3. apply rel_eq_inv. unfold resolve_set_sol_value_calculator. rd. repeat go; first [reflexivity|apply rel_eq; reflexivity]. Qed.
Lemma rel_rwd w w' pa t : sim w w' -> P pa -> P t -> resolve_withdraw_protocol_fees D w pa t = resolve_withdraw_protocol_fees D w' pa t.
Proof. intros H H1 H2. apply rel_eq_inv. unfold resolve_withdraw_protocol_fees. rd. repeat go; first [reflexivity|apply rel_eq; reflexivity]. Qed.
Lemma rel_rauth w w' i r s pa la : sim w w' -> P la ->
  resolve_remove_disable_pool_authority w i r s pa la = resolve_remove_disable_pool_authority w' i r s pa la.
Proof. intros H H1. apply rel_eq_inv. unfold resolve_remove_disable_pool_authority. repeat go; first [reflexivity|apply rel_eq; reflexivity]. Qed.
Lemma rel_rstart w w' i j t la pa m n : sim w w' -> P la -> P pa -> P m -> P n ->
  resolve_start_rebalance D w i j t la pa m n = resolve_start_rebalance D w' i j t la pa m n.
Proof. intros H H1 H2 H3 H4. apply rel_eq_inv. unfold resolve_start_rebalance. rd. repeat go; first [reflexivity|apply rel_eq; reflexivity]. Qed.
Lemma rel_rend w w' pa la ra m : sim w w' -> P pa -> P la -> P ra -> P m ->
  resolve_end_rebalance D w pa la ra m = resolve_end_rebalance D w' pa la ra m.
Proof. intros H H1 H2 H3 H4. apply rel_eq_inv. unfold resolve_end_rebalance. rd. repeat go; first [reflexivity|apply rel_eq; reflexivity]. Qed.
Hint Resolve rel_rsync rel_rswap rel_rliq rel_rset rel_radd rel_rrem rel_rcalc rel_rwd rel_rauth rel_rstart rel_rend : reads.

(** Take the accounts of the call one by one. *)
Ltac more := match goal with
  | H : allP ?l |- rel _ (match ?l with [] => _ | _ => _ end) _ =>
      destruct l as [|? l]; [reflexivity|apply allP_cons in H; destruct H as (? & H)] end.

Lemma rel_vswap w w' accs n m i j : sim w w' -> allP accs ->
  rel (eqg (fun r => sgood (fst r) /\ cgood (fst (fst (snd r))) /\ cgood (snd (fst (snd r))) /\ cgood (snd (snd r))))
    (verify_swap D w accs n m i j) (verify_swap D w' accs n m i j).
Proof.
  intros H Ha. unfold verify_swap. repeat more. repeat go.
  eapply rel_bind; [apply rel_sw; eassumption|]. intros [[c1 c2] c3] ? (<- & G1 & G2 & G3). cbn in *. split; [reflexivity|]. unfold sgood. cbn. tauto.
Qed.
Lemma rel_vliq w w' accs b n i : sim w w' -> allP accs ->
  rel (eqg (fun r => lgood (fst r) /\ cgood (fst (snd r)) /\ cgood (snd (snd r))))
    (verify_liquidity D w accs b n i) (verify_liquidity D w' accs b n i).
Proof.
  intros H Ha. unfold verify_liquidity. repeat more. destruct b; repeat go.
  - apply (rel_bind eq); [apply rel_eq; rewrite (rel_lst w w') by auto; reflexivity|]. intros ? ? <-.
    eapply rel_bind; [apply rel_lp; eassumption|]. intros [c1 c2] ? (<- & G1 & G2). cbn in *. split; [reflexivity|]. unfold lgood. cbn. tauto.
  - eapply rel_bind; [apply rel_lp; eassumption|]. intros [c1 c2] ? (<- & G1 & G2). cbn in *. split; [reflexivity|]. unfold lgood. cbn. tauto.
Qed.
Lemma rel_src w w' A c i : sim w w' -> sgood A -> cgood c -> rel sim (sync_src E w A c i) (sync_src E' w' A c i).
Proof. intros H HA Hc. unfold sgood in HA. unfold sync_src. apply rel_sync; tauto. Qed.
Lemma rel_dst w w' A c i : sim w w' -> sgood A -> cgood c -> rel sim (sync_dst E w A c i) (sync_dst E' w' A c i).
Proof. intros H HA Hc. unfold sgood in HA. unfold sync_dst. apply rel_sync; tauto. Qed.
Lemma rel_sliq w w' A c i : sim w w' -> lgood A -> cgood c -> rel sim (sync_liq E w A c i) (sync_liq E' w' A c i).
Proof. intros H HA Hc. unfold lgood in HA. unfold sync_liq. apply rel_sync; tauto. Qed.
Hint Resolve rel_src rel_dst rel_sliq : moves.
Ltac fin := cbn; auto.

Lemma rel_settle w w' A c1 c2 i j st a b p : sim w w' -> sgood A -> cgood c1 -> cgood c2 ->
  rel sim (swap_settle E w A c1 c2 i j st a b p) (swap_settle E' w' A c1 c2 i j st a b p).
Proof.
  intros H HA H1 H2. pose proof HA as HA'. unfold sgood in HA'. destruct HA' as (?&?&?&?&?&?&?&?&?&?&?&?). unfold swap_settle. repeat go. fin.
Qed.
Lemma rel_pin_ w w' accs a : sim w w' -> allP accs -> rel sim (process_swap_exact_in D E w accs a) (process_swap_exact_in D E' w' accs a).
Proof.
  intros H Ha. unfold process_swap_exact_in. go. eapply rel_bind; [apply rel_vswap; eassumption|].
  intros (A & (c1 & c2) & c3) ? (<- & HA & G1 & G2 & G3). cbn in *. pose proof HA as HA'. unfold sgood in HA'. destruct HA' as (?&?&?&?&?&?&?&?&?&?&?&?).
  repeat go. apply rel_settle; auto.
Qed.
Lemma rel_pout_ w w' accs a : sim w w' -> allP accs -> rel sim (process_swap_exact_out D E w accs a) (process_swap_exact_out D E' w' accs a).
Proof.
  intros H Ha. unfold process_swap_exact_out. go. eapply rel_bind; [apply rel_vswap; eassumption|].
  intros (A & (c1 & c2) & c3) ? (<- & HA & G1 & G2 & G3). cbn in *. pose proof HA as HA'. unfold sgood in HA'. destruct HA' as (?&?&?&?&?&?&?&?&?&?&?&?).
  repeat go. apply rel_settle; auto.
Qed.
Lemma rel_add_ w w' accs a : sim w w' -> allP accs -> rel sim (process_add_liquidity D E w accs a) (process_add_liquidity D E' w' accs a).
Proof.
  intros H Ha. unfold process_add_liquidity. go. eapply rel_bind; [apply rel_vliq; eassumption|].
  intros (A & c1 & c2) ? (<- & HA & G1 & G2). cbn in *. pose proof HA as HA'. unfold lgood in HA'. destruct HA' as (?&?&?&?&?&?&?&?&?&?&?).
  repeat go. fin.
Qed.
Lemma rel_rem_ w w' accs a : sim w w' -> allP accs -> rel sim (process_remove_liquidity D E w accs a) (process_remove_liquidity D E' w' accs a).
Proof.
  intros H Ha. unfold process_remove_liquidity. go. eapply rel_bind; [apply rel_vliq; eassumption|].
  intros (A & c1 & c2) ? (<- & HA & G1 & G2). cbn in *. pose proof HA as HA'. unfold lgood in HA'. destruct HA' as (?&?&?&?&?&?&?&?&?&?&?).
  repeat go. apply rel_sliq; auto.
Qed.
Lemma rel_sync_ w w' accs i : sim w w' -> allP accs -> rel sim (process_sync_sol_value D E w accs i) (process_sync_sol_value D E' w' accs i).
Proof.
  intros H Ha. unfold process_sync_sol_value. repeat more. repeat go. eapply rel_bind; [apply rel_calc; eassumption|].
  intros c ? (<- & Hc). apply rel_sync; auto.
Qed.
Lemma rel_set_ w w' accs i f : sim w w' -> allP accs -> rel sim (process_set_lst_input w accs i f) (process_set_lst_input w' accs i f).
Proof. intros H Ha. unfold process_set_lst_input. repeat more. repeat go. fin. Qed.
Lemma rel_addlst_ w w' accs : sim w w' -> allP accs -> rel sim (process_add_lst D w accs) (process_add_lst D w' accs).
Proof. intros H Ha. unfold process_add_lst. repeat more. repeat go. fin. Qed.
Lemma rel_remlst_ w w' accs i : sim w w' -> allP accs -> rel sim (process_remove_lst D w accs i) (process_remove_lst D w' accs i).
Proof. intros H Ha. unfold process_remove_lst. repeat more. repeat go. fin. Qed.
Lemma rel_calc_ w w' accs i : sim w w' -> allP accs -> rel sim (process_set_sol_value_calculator D E w accs i) (process_set_sol_value_calculator D E' w' accs i).
Proof.
  intros H Ha. unfold process_set_sol_value_calculator. repeat more.
  repeat (lazymatch goal with |- rel _ (bind (cpi_from_suffix _) _) _ => fail | _ => go end). eapply rel_bind; [apply rel_suffix; eassumption|].
  intros c ? (<- & Hc). pose proof Hc as (Hc1 & _). repeat go. apply rel_sync; auto.
Qed.
Lemma rel_admin_ w w' accs : sim w w' -> allP accs -> rel sim (process_set_admin w accs) (process_set_admin w' accs).
Proof. intros H Ha. unfold process_set_admin. repeat more. repeat go. fin. Qed.
Lemma rel_fee_ w w' accs t l : sim w w' -> allP accs -> rel sim (process_set_protocol_fee w accs t l) (process_set_protocol_fee w' accs t l).
Proof. intros H Ha. unfold process_set_protocol_fee. repeat more. repeat go. fin. Qed.
Lemma rel_ben_ w w' accs : sim w w' -> allP accs -> rel sim (process_set_protocol_fee_beneficiary w accs) (process_set_protocol_fee_beneficiary w' accs).
Proof. intros H Ha. unfold process_set_protocol_fee_beneficiary. repeat more. repeat go. fin. Qed.
Lemma rel_pp_ w w' accs : sim w w' -> allP accs -> rel sim (process_set_pricing_program w accs) (process_set_pricing_program w' accs).
Proof. intros H Ha. unfold process_set_pricing_program. repeat more. repeat go. fin. Qed.
Lemma rel_wd_ w w' accs n : sim w w' -> allP accs -> rel sim (process_withdraw_protocol_fees D w accs n) (process_withdraw_protocol_fees D w' accs n).
Proof. intros H Ha. unfold process_withdraw_protocol_fees. repeat more. repeat go. apply rel_transfer; auto. Qed.
Lemma rel_addau_ w w' accs : sim w w' -> allP accs -> rel sim (process_add_disable_pool_authority w accs) (process_add_disable_pool_authority w' accs).
Proof. intros H Ha. unfold process_add_disable_pool_authority. repeat more. repeat go. fin. Qed.
Lemma rel_remau_ w w' accs i : sim w w' -> allP accs -> rel sim (process_remove_disable_pool_authority w accs i) (process_remove_disable_pool_authority w' accs i).
Proof. intros H Ha. unfold process_remove_disable_pool_authority. repeat more. repeat go. fin. Qed.
Lemma rel_dis_ w w' accs : sim w w' -> allP accs -> rel sim (process_disable_pool w accs) (process_disable_pool w' accs).
Proof. intros H Ha. unfold process_disable_pool. repeat more. repeat go. fin. Qed.
Lemma rel_en_ w w' accs : sim w w' -> allP accs -> rel sim (process_enable_pool w accs) (process_enable_pool w' accs).
Proof. intros H Ha. unfold process_enable_pool. repeat more. repeat go. fin. Qed.
Lemma rel_ra_ w w' accs : sim w w' -> allP accs -> rel sim (process_set_rebalance_authority w accs) (process_set_rebalance_authority w' accs).
Proof. intros H Ha. unfold process_set_rebalance_authority. repeat more. repeat go. fin. Qed.
Lemma rel_init_ w w' accs : sim w w' -> allP accs -> rel sim (process_initialize w accs) (process_initialize w' accs).
Proof.
  intros H Ha. unfold process_initialize. repeat more. repeat go. apply rel_setf; auto.
Qed.
Lemma rel_start_ w w' C accs a : sim w w' -> allP accs -> rel sim (process_start_rebalance D E C w accs a) (process_start_rebalance D E' C w' accs a).
Proof.
  intros H Ha. unfold process_start_rebalance. repeat more. repeat go. eapply rel_bind; [apply rel_two; eassumption|].
  intros (c1 & c2) ? (<- & G1 & G2). cbn in G1, G2. repeat go. cbv zeta.
  fin.
Qed.
Lemma rel_end_ w w' accs : sim w w' -> allP accs -> rel sim (process_end_rebalance D E w accs) (process_end_rebalance D E' w' accs).
Proof.
  intros H Ha. unfold process_end_rebalance. repeat more. repeat go. eapply rel_bind; [apply rel_calc; eassumption|].
  intros c ? (<- & Hc). cbv zeta.
  repeat go. fin.
Qed.
Lemma rel_process C w w' accs ix : sim w w' -> allP accs -> rel sim (process D E C w accs ix) (process D E' C w' accs ix).
Proof.
  intros H Ha. unfold process. apply rel_guard; [reflexivity|]. destruct ix.
  - apply rel_sync_; auto. - apply rel_pin_; auto. - apply rel_pout_; auto. - apply rel_add_; auto. - apply rel_rem_; auto.
  - apply rel_set_; auto. - apply rel_set_; auto. - apply rel_addlst_; auto. - apply rel_remlst_; auto. - apply rel_calc_; auto.
  - apply rel_admin_; auto. - apply rel_fee_; auto. - apply rel_ben_; auto. - apply rel_pp_; auto. - apply rel_wd_; auto.
  - apply rel_addau_; auto. - apply rel_remau_; auto. - apply rel_dis_; auto. - apply rel_en_; auto. - apply rel_start_; auto.
  - apply rel_end_; auto. - apply rel_ra_; auto. - apply rel_init_; auto.
Qed.
End Reads.
