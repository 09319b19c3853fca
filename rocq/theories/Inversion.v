(** Success-inversion lemmas: what must have held for each processor to succeed. *)
From Coq Require Import ZArith List Bool Lia.
From Verif Require Import Base Ratio Calc State Controller.
Import ListNotations.
Open Scope Z_scope.

(** Break every successful [bind]/[guard]/... in the context. *)
Ltac inv_ok1 :=
  match goal with
  | H : bind _ _ = Ok _ |- _ =>
      apply bind_ok in H; let x := fresh "v" in let Hx := fresh "Hv" in
      destruct H as (x & Hx & H); cbn beta iota in H
  | H : guard _ _ _ = Ok _ |- _ =>
      apply guard_ok in H; let Hb := fresh "Hg" in destruct H as (Hb & H)
  | H : Ok _ = Ok _ |- _ => injection H; clear H; intros; subst
  | H : Err _ = Ok _ |- _ => discriminate H
  | H : of_option _ _ = Ok _ |- _ => apply of_option_ok in H
  | H : (let '(_, _) := ?x in _) = Ok _ |- _ => destruct x; cbn beta iota in H
  | H : match ?x with (_, _) => _ end = Ok _ |- _ => destruct x; cbn beta iota in H
  | H : checked_add _ _ _ = Ok _ |- _ => apply checked_add_ok in H; destruct H as (-> & H)
  | H : checked_sub _ _ _ = Ok _ |- _ => apply checked_sub_ok in H; destruct H as (-> & H)
  | H : (_ && _) = true |- _ => apply andb_true_iff in H; destruct H
  | H : (_ =? _) = true |- _ => apply Z.eqb_eq in H
  | H : (_ <=? _) = true |- _ => apply Z.leb_le in H
  | H : negb (_ =? _) = true |- _ => apply negb_true_iff in H; apply Z.eqb_neq in H
  | H : true = true |- _ => clear H
  | H : unit |- _ => destruct H
  end.
Ltac inv_ok := repeat inv_ok1.

Ltac split_accs H :=
  match type of H with
  | match ?l with [] => _ | _ :: _ => _ end = Ok _ =>
      let a := fresh "acc" in let r := fresh "rest" in
      destruct l as [|a r]; [discriminate H|]; cbn beta iota in H
  end.

(** Pool not disabled and not rebalancing. *)
Definition active (ps : PoolState) : Prop := is_rebalancing ps = 0 /\ is_disabled ps = 0.

Lemma verify_active ps : verify_not_rebalancing_and_not_disabled ps = Ok tt <-> active ps.
Proof.
  unfold verify_not_rebalancing_and_not_disabled, u8bool_is_true, u8bool_is_false, active, guard.
  destruct (Z.eqb_spec (is_rebalancing ps) 0), (Z.eqb_spec (is_disabled ps) 0); cbn; split;
    intuition congruence.
Qed.

Lemma verify_input_enabled ls : verify_lst_input_not_disabled ls = Ok tt <-> is_input_disabled ls = 0.
Proof.
  unfold verify_lst_input_not_disabled, u8bool_is_true, u8bool_is_false, guard.
  destruct (Z.eqb_spec (is_input_disabled ls) 0); cbn; split; intuition congruence.
Qed.

Lemma find_key_spec k l :
  (match find_key k l with Some _ => true | None => false end) = true <-> In k l.
Proof.
  induction l as [|x t IH]; cbn.
  - split; [discriminate|tauto].
  - destruct (Z.eqb_spec x k).
    + split; auto.
    + destruct (find_key k t); rewrite <- IH; intuition congruence.
Qed.

Lemma verify_admin_or_auth w signer ps L :
  verify_admin_or_disable_pool_authority w signer ps L = Ok tt ->
  signer = admin ps \/ exists l, w_auth w L = Some l /\ In signer l.
Proof.
  unfold verify_admin_or_disable_pool_authority. destruct (Z.eqb_spec signer (admin ps)); auto.
  intros H. right. unfold try_disable_pool_authority_list in H. inv_ok.
  apply find_key_spec in Hg. eauto.
Qed.

Lemma try_match_ok m l i ls :
  try_match_lst_mint_on_list m l i = Ok ls <-> nth_lst l i = Some ls /\ ls_mint ls = m.
Proof.
  unfold try_match_lst_mint_on_list. rewrite bind_ok. split.
  - intros (x & Hx & H). inv_ok. auto.
  - intros (H & <-). exists ls. rewrite H. cbn. now rewrite Z.eqb_refl.
Qed.

(** Verified CPI targets. *)
Lemma verify_lst_cpi_ok w L s i c :
  verify_lst_sol_val_calc_cpi w L s i = Ok c ->
  exists l ls, s = cpi_prog c :: cpi_accs c /\ w_list w L = Some l /\ nth_lst l i = Some ls /\
    mk (cpi_prog c) = sol_value_calculator ls.
Proof.
  unfold verify_lst_sol_val_calc_cpi, cpi_from_suffix, try_lst_state_list. intros H.
  destruct s as [|p r]; cbn in H; [discriminate|]. inv_ok. cbn in *.
  match goal with H1 : w_list _ _ = Some ?a, H2 : nth_lst ?a _ = Some ?b |- _ => exists a, b end.
  auto.
Qed.

Lemma verify_pricing_cpi_ok w P s c :
  verify_pricing_cpi w P s = Ok c ->
  exists ps, s = cpi_prog c :: cpi_accs c /\ w_pool w P = Some ps /\
    mk (cpi_prog c) = pricing_program ps.
Proof.
  unfold verify_pricing_cpi, cpi_from_suffix, try_pool_state. intros H.
  destruct s as [|p r]; cbn in H; [discriminate|]. inv_ok. cbn in *. eauto.
Qed.

Lemma slices_ok s n a b :
  slice_to s n = Ok a -> slice_from s n = Ok b -> s = a ++ b /\ length a = Z.to_nat n.
Proof.
  unfold slice_to, slice_from. destruct (Z.leb_spec n (Z.of_nat (length s))); intros [= <-] [= <-].
  rewrite firstn_skipn. split; auto. rewrite firstn_length. lia.
Qed.

Lemma verify_src_dst_ok w L s n i j cs cd :
  verify_src_dst_lst_sol_val_calc_cpis w L s n i j = Ok (cs, cd) ->
  exists l lsrc ldst,
    s = (cpi_prog cs :: cpi_accs cs) ++ (cpi_prog cd :: cpi_accs cd) /\
    length (cpi_prog cs :: cpi_accs cs) = Z.to_nat n /\
    w_list w L = Some l /\ nth_lst l i = Some lsrc /\ nth_lst l j = Some ldst /\
    mk (cpi_prog cs) = sol_value_calculator lsrc /\ mk (cpi_prog cd) = sol_value_calculator ldst.
Proof.
  unfold verify_src_dst_lst_sol_val_calc_cpis. intros H. inv_ok.
  match goal with H1 : slice_to _ _ = Ok _, H2 : slice_from _ _ = Ok _ |- _ =>
    destruct (slices_ok _ _ _ _ H1 H2) as (-> & Hlen) end.
  repeat match goal with H : verify_lst_sol_val_calc_cpi _ _ _ _ = Ok _ |- _ =>
    apply verify_lst_cpi_ok in H; destruct H as (? & ? & -> & ? & ? & ?) end.
  match goal with H1 : w_list w L = Some ?a, H2 : w_list w L = Some ?b |- _ =>
    assert (a = b) by congruence; subst end.
  eauto 10.
Qed.

Lemma verify_lp_ok w L P s n i c p :
  verify_lp_cpis w L P s n i = Ok (c, p) ->
  exists l ls ps,
    s = (cpi_prog c :: cpi_accs c) ++ (cpi_prog p :: cpi_accs p) /\
    length (cpi_prog c :: cpi_accs c) = Z.to_nat n /\
    w_list w L = Some l /\ nth_lst l i = Some ls /\ w_pool w P = Some ps /\
    mk (cpi_prog c) = sol_value_calculator ls /\ mk (cpi_prog p) = pricing_program ps.
Proof.
  unfold verify_lp_cpis. intros H. inv_ok.
  match goal with H1 : slice_to _ _ = Ok _, H2 : slice_from _ _ = Ok _ |- _ =>
    destruct (slices_ok _ _ _ _ H1 H2) as (-> & Hlen) end.
  match goal with H : verify_lst_sol_val_calc_cpi _ _ _ _ = Ok _ |- _ =>
    apply verify_lst_cpi_ok in H; destruct H as (? & ? & -> & ? & ? & ?) end.
  match goal with H : verify_pricing_cpi _ _ _ = Ok _ |- _ =>
    apply verify_pricing_cpi_ok in H; destruct H as (? & -> & ? & ?) end.
  eauto 12.
Qed.

Lemma verify_swap_cpis_ok w L P s n m i j cs cd p :
  0 <= n -> 0 <= m ->
  verify_swap_cpis w L P s n m i j = Ok (cs, cd, p) ->
  exists l lsrc ldst ps,
    s = (cpi_prog cs :: cpi_accs cs) ++ (cpi_prog cd :: cpi_accs cd) ++ (cpi_prog p :: cpi_accs p) /\
    length (cpi_prog cs :: cpi_accs cs) = Z.to_nat n /\
    length (cpi_prog cd :: cpi_accs cd) = Z.to_nat m /\
    w_list w L = Some l /\ nth_lst l i = Some lsrc /\ nth_lst l j = Some ldst /\
    w_pool w P = Some ps /\
    mk (cpi_prog cs) = sol_value_calculator lsrc /\ mk (cpi_prog cd) = sol_value_calculator ldst /\
    mk (cpi_prog p) = pricing_program ps.
Proof.
  intros Hn Hm. unfold verify_swap_cpis. intros H. inv_ok.
  match goal with H1 : slice_to _ _ = Ok _, H2 : slice_from _ _ = Ok _ |- _ =>
    destruct (slices_ok _ _ _ _ H1 H2) as (-> & Hlen) end.
  match goal with H : verify_src_dst_lst_sol_val_calc_cpis _ _ _ _ _ _ = Ok _ |- _ =>
    apply verify_src_dst_ok in H; destruct H as (l & ls & ld & -> & Hn' & ? & ? & ? & ? & ?) end.
  match goal with H : verify_pricing_cpi _ _ _ = Ok _ |- _ =>
    apply verify_pricing_cpi_ok in H; destruct H as (ps & -> & ? & ?) end.
  exists l, ls, ld, ps. rewrite <- app_assoc. repeat split; auto.
  rewrite app_length, Hn' in Hlen. cbn [length] in *. lia.
Qed.

(* ------------------------------------------------------------------ *)
(** Primitive effects *)

(** The controller accounts (at every key) and executability are the same. *)
Definition ctl_eq (w w' : World) : Prop :=
  w_pool w' = w_pool w /\ w_list w' = w_list w /\ w_auth w' = w_auth w /\ w_rec w' = w_rec w /\
  w_exec w' = w_exec w.

Lemma ctl_eq_refl w : ctl_eq w w.
Proof. repeat split. Qed.
Lemma ctl_eq_trans w1 w2 w3 : ctl_eq w1 w2 -> ctl_eq w2 w3 -> ctl_eq w1 w3.
Proof. unfold ctl_eq. intuition congruence. Qed.

Lemma transfer_inv w prog from to mint auth s amt w' :
  transfer_checked w prog from to mint auth s amt = Ok w' ->
  exists f t m,
    is_token_program prog = true /\
    w_tok w from = Some f /\ w_tok w to = Some t /\ w_mint w mint = Some m /\
    w_owner w from = prog /\ w_owner w to = prog /\ w_owner w mint = prog /\
    ta_mint f = mint /\ ta_mint t = mint /\ ta_owner f = auth /\ s = true /\
    amt <= ta_amount f /\
    ((from = to /\ w' = w) \/
     (from <> to /\ ta_amount t + amt <= U64_MAX /\
      w' = put_tok (put_tok w from (Some (mkTok mint auth (ta_amount f - amt)))) to
             (Some (mkTok mint (ta_owner t) (ta_amount t + amt))))).
Proof.
  unfold transfer_checked. intros H. inv_ok.
  match goal with H1 : w_tok w from = Some ?a, H2 : w_tok w to = Some ?b,
    H3 : w_mint w _ = Some ?c |- _ => exists a, b, c end.
  repeat split; auto; try congruence.
  destruct (Z.eqb_spec from to); inv_ok; auto.
  right. repeat split; auto. congruence.
Qed.

Lemma mint_to_inv w prog mint to auth s amt w' :
  mint_to w prog mint to auth s amt = Ok w' ->
  exists t m,
    is_token_program prog = true /\
    w_tok w to = Some t /\ w_mint w mint = Some m /\
    w_owner w to = prog /\ w_owner w mint = prog /\ ta_mint t = mint /\
    m_auth m = Some auth /\ s = true /\
    ta_amount t + amt <= U64_MAX /\ m_supply m + amt <= U64_MAX /\
    w' = put_mint (put_tok w to (Some (mkTok mint (ta_owner t) (ta_amount t + amt)))) mint
           (Some (mkMint (m_supply m + amt) (m_decimals m) (m_auth m) (m_freeze m))).
Proof.
  unfold mint_to. intros H. inv_ok.
  match goal with H1 : w_tok w to = Some ?a, H3 : w_mint w _ = Some ?c |- _ => exists a, c end.
  destruct (m_auth _) eqn:Ha; try discriminate. inv_ok.
  repeat split; auto; congruence.
Qed.

Lemma burn_inv w prog mint from auth s amt w' :
  burn w prog mint from auth s amt = Ok w' ->
  exists f m,
    is_token_program prog = true /\
    w_tok w from = Some f /\ w_mint w mint = Some m /\
    w_owner w from = prog /\ w_owner w mint = prog /\ ta_mint f = mint /\
    ta_owner f = auth /\ s = true /\ amt <= ta_amount f /\ amt <= m_supply m /\
    w' = put_mint (put_tok w from (Some (mkTok mint auth (ta_amount f - amt)))) mint
           (Some (mkMint (m_supply m - amt) (m_decimals m) (m_auth m) (m_freeze m))).
Proof.
  unfold burn. intros H. inv_ok.
  match goal with H1 : w_tok w from = Some ?a, H3 : w_mint w _ = Some ?c |- _ => exists a, c end.
  repeat split; auto; congruence.
Qed.

Lemma close_inv w prog acc auth s w' :
  close_token_account w prog acc auth s = Ok w' ->
  exists t, is_token_program prog = true /\ w_tok w acc = Some t /\ w_owner w acc = prog /\
    ta_owner t = auth /\ s = true /\ ta_amount t = 0 /\
    w' = put_owner (put_tok w acc None) acc SYSTEM_PROGRAM_ID.
Proof. unfold close_token_account. intros H. inv_ok. eexists; repeat split; eauto. Qed.

Lemma create_ata_if_inv w ata wallet mint prog w' :
  create_ata_if_not_exist w ata wallet mint prog = Ok w' ->
  (exists t, w_tok w ata = Some t /\ ta_owner t = wallet /\ w' = w) \/
  (w_tok w ata = None /\ is_token_program prog = true /\ w_owner w mint = prog /\
   w' = put_owner (put_tok w ata (Some (mkTok mint wallet 0))) ata prog).
Proof.
  unfold create_ata_if_not_exist, create_ata_account. destruct (w_tok w ata) eqn:Ht; intros H; inv_ok.
  - left. eauto.
  - destruct (w_mint w mint) eqn:Hm; inv_ok. right; repeat split; auto; congruence.
Qed.

Lemma set_mint_auth_inv w prog mint cur s new w' :
  set_mint_authority w prog mint cur s new = Ok w' ->
  exists m, w_mint w mint = Some m /\ m_auth m = Some cur /\ s = true /\ w_owner w mint = prog /\
    w' = put_mint w mint (Some (mkMint (m_supply m) (m_decimals m) (Some new) (m_freeze m))).
Proof.
  unfold set_mint_authority. intros H. inv_ok. destruct (m_auth _) eqn:Ha; try discriminate. inv_ok.
  eexists; repeat split; eauto. congruence.
Qed.
Lemma set_freeze_auth_inv w prog mint cur s new w' :
  set_freeze_authority w prog mint cur s new = Ok w' ->
  exists m, w_mint w mint = Some m /\ m_freeze m = Some cur /\ s = true /\ w_owner w mint = prog /\
    w' = put_mint w mint (Some (mkMint (m_supply m) (m_decimals m) (m_auth m) (Some new))).
Proof.
  unfold set_freeze_authority. intros H. inv_ok. destruct (m_freeze _) eqn:Ha; try discriminate.
  inv_ok. eexists; repeat split; eauto. congruence.
Qed.

Lemma transfer_ctl w prog from to mint auth s amt w' :
  transfer_checked w prog from to mint auth s amt = Ok w' -> ctl_eq w w'.
Proof.
  intros H. apply transfer_inv in H. destruct H as (?&?&?&H). decompose [and or] H; subst;
  repeat split.
Qed.
Lemma mint_to_ctl w prog mint to auth s amt w' :
  mint_to w prog mint to auth s amt = Ok w' -> ctl_eq w w'.
Proof. intros H. apply mint_to_inv in H. destruct H as (?&?&H). decompose [and] H; subst; repeat split. Qed.
Lemma burn_ctl w prog mint from auth s amt w' :
  burn w prog mint from auth s amt = Ok w' -> ctl_eq w w'.
Proof. intros H. apply burn_inv in H. destruct H as (?&?&H). decompose [and] H; subst; repeat split. Qed.
Lemma close_ctl w prog acc auth s w' :
  close_token_account w prog acc auth s = Ok w' -> ctl_eq w w'.
Proof. intros H. apply close_inv in H. destruct H as (?&H). decompose [and] H; subst; repeat split. Qed.
Lemma create_ata_if_ctl w ata wallet mint prog w' :
  create_ata_if_not_exist w ata wallet mint prog = Ok w' -> ctl_eq w w'.
Proof. intros H. apply create_ata_if_inv in H. destruct H as [(?&H)|H]; decompose [and] H; subst; repeat split. Qed.
Lemma set_mint_auth_ctl w prog mint cur s new w' :
  set_mint_authority w prog mint cur s new = Ok w' -> ctl_eq w w'.
Proof. intros H. apply set_mint_auth_inv in H. destruct H as (?&H). decompose [and] H; subst; repeat split. Qed.
Lemma set_freeze_auth_ctl w prog mint cur s new w' :
  set_freeze_authority w prog mint cur s new = Ok w' -> ctl_eq w w'.
Proof. intros H. apply set_freeze_auth_inv in H. destruct H as (?&H). decompose [and] H; subst; repeat split. Qed.

(** What a sync does: it measures the reserve balance and writes the value. *)
Lemma decode_range_ok r lo hi : decode_range r = Ok (lo, hi) <-> r = Ok (lo, hi) /\ U64 lo /\ U64 hi.
Proof.
  unfold decode_range, of_ext. destruct r as [[a b]|]; cbn.
  - unfold guard. destruct (u64b a && u64b b) eqn:Hb.
    + apply andb_true_iff in Hb. rewrite !U64_spec in Hb. intuition congruence.
    + split; [discriminate|]. intros ([= <- <-] & H). rewrite <- !U64_spec in H.
      destruct H as [H1 H2]. rewrite H1, H2 in Hb. discriminate.
  - intuition discriminate.
Qed.
Lemma decode_u64_ok r x : decode_u64 r = Ok x <-> r = Ok x /\ U64 x.
Proof.
  unfold decode_u64, of_ext. destruct r as [a|]; cbn.
  - unfold guard. destruct (u64b a) eqn:Hb.
    + rewrite U64_spec in Hb. intuition congruence.
    + split; [discriminate|]. intros ([= <-] & H). rewrite <- U64_spec in H. congruence.
  - intuition discriminate.
Qed.

Lemma sync_inv E w P L R c m i w' :
  sync_sol_value_unchecked E w P L R c m i = Ok w' ->
  exists t ps l ls lo hi,
    w_tok w R = Some t /\
    e_lst_to_sol E w (mk (cpi_prog c)) m (cpi_accs c) (ta_amount t) = Ok (lo, hi) /\
    U64 lo /\ U64 hi /\
    w_pool w P = Some ps /\ w_list w L = Some l /\ nth_lst l i = Some ls /\
    sol_value ls <= total_sol_value ps /\
    total_sol_value ps - sol_value ls + lo <= U64_MAX /\
    w' = put_list (put_pool w P (Some (set_total ps (total_sol_value ps - sol_value ls + lo)))) L
           (Some (replace_nth l (Z.to_nat i) (set_sol_value ls lo))).
Proof.
  unfold sync_sol_value_unchecked, token_account_balance, sync_sol_value_with_retval,
    try_pool_state, try_lst_state_list, invoke_lst_to_sol. intros H. inv_ok.
  match goal with H : decode_range _ = Ok _ |- _ => apply decode_range_ok in H as (? & ? & ?) end.
  repeat eexists; eauto; match goal with H : U64 _ |- _ => apply H end.
Qed.
