(** Proofs for C25: running the instruction a quote stands for. *)
From Coq Require Import ZArith List Bool Lia.
From Verif Require Import Base Ratio Calc State Controller Inversion ProcInv Spec CalcProofs InvProofs TokProofs AccessProofs
  ShapeProofs MoneyProofs Periph PeriphSpec PeriphProofs PropCalc PropFlat Serde SerdeProofs Client ClientSpec ClientProofs PropClient
  Deploy Known Jup JupSpec JupProofs.
Import ListNotations.
Open Scope Z_scope.

(* ------------------------------------------------------------------ *)
(** * Outcomes *)

(** [r] is a result satisfying [P], or an error satisfying [bad]. *)
Definition out {A} (bad : err -> Prop) (P : A -> Prop) (r : res A) : Prop :=
  match r with Ok a => P a | Err e => bad e end.
Lemma out_bind {A B} (bad : err -> Prop) (P : B -> Prop) (m : res A) (f : A -> res B) :
  out bad (fun a => out bad P (f a)) m -> out bad P (bind m f).
Proof. destruct m; auto. Qed.
Lemma out_guard {A} (bad : err -> Prop) (P : A -> Prop) b e (k : res A) :
  (b = false -> bad e) -> (b = true -> out bad P k) -> out bad P (guard b e k).
Proof. destruct b; cbn; auto. Qed.
Lemma out_mono {A} (bad bad' : err -> Prop) (P Q : A -> Prop) r : (forall e, bad e -> bad' e) -> (forall a, P a -> Q a) ->
  out bad P r -> out bad' Q r.
Proof. destruct r; cbn; auto. Qed.
Lemma out_intro {A} (bad : err -> Prop) (P : A -> Prop) r :
  (forall e, r = Err e -> bad e) -> (forall a, r = Ok a -> P a) -> out bad P r.
Proof. destruct r; cbn; auto. Qed.

(* ------------------------------------------------------------------ *)
(** * Token operations *)

(** A token account of a mint, held by a token program, with its owner. *)
Definition holds (w : World) (k m prog : key) : Prop :=
  w_owner w k = prog /\ exists t, w_tok w k = Some t /\ ta_mint t = m.
Definition owned (w : World) (k a : key) : Prop := exists t, w_tok w k = Some t /\ ta_owner t = a.
Definition is_mint (w : World) (m prog : key) : Prop := w_mint w m <> None /\ w_owner w m = prog.

Lemma shape_holds w w' k m prog : shape w w' -> holds w k m prog -> holds w' k m prog.
Proof.
  intros (So & St & _) (H1 & t & H2 & H3). split; [congruence|]. specialize (St k). rewrite H2 in St.
  destruct (w_tok w' k) as [t'|]; [|tauto]. exists t'. intuition congruence.
Qed.
Lemma shape_owned w w' k a : shape w w' -> owned w k a -> owned w' k a.
Proof.
  intros (So & St & _) (t & H2 & H3). unfold owned. specialize (St k). rewrite H2 in St.
  destruct (w_tok w' k) as [t'|]; [|tauto]. exists t'. intuition congruence.
Qed.
Lemma shape_mint w w' m prog : shape w w' -> is_mint w m prog -> is_mint w' m prog.
Proof.
  intros (So & _ & Sm) (H1 & H2). split; [|congruence]. specialize (Sm m). destruct (w_mint w m), (w_mint w' m); try congruence; tauto.
Qed.
Lemma holds_ne w k m prog k' m' prog' : holds w k m prog -> holds w k' m' prog' -> m <> m' -> k <> k'.
Proof. intros (_ & t & H & E1) (_ & t' & H' & E2) Hne ->. congruence. Qed.

Lemma transfer_err w prog from to mint auth s amt e : transfer_checked w prog from to mint auth s amt = Err e -> e = TokenErr.
Proof.
  unfold transfer_checked. destruct (is_token_program prog); [|cbn; congruence]. cbn [guard].
  destruct (w_tok w from); [|cbn; congruence]. destruct (w_tok w to); [|cbn; congruence].
  destruct (w_mint w mint); [|cbn; congruence]. cbn [of_option bind].
  repeat match goal with |- context [guard ?b _ _] => destruct b; cbn [guard]; [|congruence] end.
  destruct (from =? to); [discriminate|].
  match goal with |- context [guard ?b _ _] => destruct b; cbn [guard]; congruence end.
Qed.
Lemma mint_to_err w prog mint to auth s amt e : mint_to w prog mint to auth s amt = Err e -> e = TokenErr.
Proof.
  unfold mint_to. destruct (is_token_program prog); [|cbn; congruence]. cbn [guard].
  destruct (w_mint w mint); [|cbn; congruence]. destruct (w_tok w to); [|cbn; congruence]. cbn [of_option bind].
  repeat match goal with |- context [guard ?b _ _] => destruct b; cbn [guard]; [|congruence] end. discriminate.
Qed.
Lemma burn_err w prog mint from auth s amt e : burn w prog mint from auth s amt = Err e -> e = TokenErr.
Proof.
  unfold burn. destruct (is_token_program prog); [|cbn; congruence]. cbn [guard].
  destruct (w_mint w mint); [|cbn; congruence]. destruct (w_tok w from); [|cbn; congruence]. cbn [of_option bind].
  repeat match goal with |- context [guard ?b _ _] => destruct b; cbn [guard]; [|congruence] end. discriminate.
Qed.

Lemma transfer_can w prog from to mint auth amt : is_token_program prog = true ->
  holds w from mint prog -> holds w to mint prog -> is_mint w mint prog -> owned w from auth ->
  amt <= balance w from -> (from <> to -> balance w to + amt <= U64_MAX) ->
  forall e, transfer_checked w prog from to mint auth true amt <> Err e.
Proof.
  intros Hp (O1 & f & Hf & Mf) (O2 & t & Ht & Mt) (Hm & O3) (f' & Hf' & Of) Hle Hmax e.
  unfold transfer_checked. rewrite Hp, Hf, Ht. cbn [guard of_option bind].
  destruct (w_mint w mint); [|congruence]. cbn [of_option bind]. rewrite O1, O2, O3, Mf, Mt, !Z.eqb_refl. cbn [andb guard].
  assert (f' = f) as -> by congruence. rewrite Of, Z.eqb_refl. cbn [andb guard].
  unfold balance in *. rewrite Hf, Ht in *. destruct (Z.leb_spec amt (ta_amount f)); [|lia]. cbn [guard].
  destruct (Z.eqb_spec from to); [discriminate|]. specialize (Hmax n).
  destruct (Z.leb_spec (ta_amount t + amt) U64_MAX); [discriminate|lia].
Qed.
Lemma mint_to_can w prog mint to auth amt i : is_token_program prog = true ->
  holds w to mint prog -> w_mint w mint = Some i -> w_owner w mint = prog -> m_auth i = Some auth ->
  balance w to + amt <= U64_MAX -> supply w mint + amt <= U64_MAX ->
  forall e, mint_to w prog mint to auth true amt <> Err e.
Proof.
  intros Hp (O2 & t & Ht & Mt) Hm O3 Ha H1 H2 e. unfold mint_to. unfold balance, supply in *. rewrite Ht, Hm in *.
  rewrite Hp. cbn [guard of_option bind]. rewrite O2, O3, Mt, Ha, !Z.eqb_refl. cbn [andb guard].
  destruct (Z.leb_spec (ta_amount t + amt) U64_MAX); [|lia].
  destruct (Z.leb_spec (m_supply i + amt) U64_MAX); [discriminate|lia].
Qed.
Lemma burn_can w prog mint from auth amt : is_token_program prog = true ->
  holds w from mint prog -> is_mint w mint prog -> owned w from auth ->
  amt <= balance w from -> amt <= supply w mint ->
  forall e, burn w prog mint from auth true amt <> Err e.
Proof.
  intros Hp (O2 & t & Ht & Mt) (Hm & O3) (t' & Ht' & Ho) H1 H2 e. unfold burn. unfold balance, supply in *. rewrite Ht in *.
  destruct (w_mint w mint); [|congruence]. rewrite Hp. cbn [guard of_option bind].
  assert (t' = t) as -> by congruence. rewrite O2, O3, Mt, Ho, !Z.eqb_refl. cbn [andb guard].
  destruct (Z.leb_spec amt (ta_amount t)); [|lia]. destruct (Z.leb_spec amt (m_supply m)); [discriminate|lia].
Qed.

Lemma holds_bal w a m prog : holds w a m prog -> balance_of_mint w m a = balance w a.
Proof. intros (_ & t & Ht & Hm). unfold balance_of_mint, balance. rewrite Ht, Hm, Z.eqb_refl. reflexivity. Qed.
Lemma sound_one w m prog a : supply_sound w m -> holds w a m prog -> balance w a <= supply w m.
Proof.
  intros H Ha. specialize (H [a]). unfold holdings in H. cbn [map sumZ] in H. rewrite Z.add_0_r, (holds_bal _ _ _ _ Ha) in H.
  apply H. constructor; [intros []|constructor].
Qed.
Lemma sound_two w m prog prog' a b : supply_sound w m -> holds w a m prog -> holds w b m prog' -> a <> b ->
  balance w a + balance w b <= supply w m.
Proof.
  intros H Ha Hb Hne. specialize (H [a; b]). unfold holdings in H. cbn [map sumZ] in H.
  rewrite Z.add_0_r, (holds_bal _ _ _ _ Ha), (holds_bal _ _ _ _ Hb) in H. apply H.
  constructor; [intros [->|[]]; auto|]. constructor; [intros []|constructor].
Qed.

(* ------------------------------------------------------------------ *)
(** * Small facts about the arithmetic *)
Lemma worth_zero c : worth c 0 = 0.
Proof.
  assert (Hsh : forall n d, share 0 n d = 0).
  { intros n d. unfold share. destruct (_ || _); auto. }
  destruct c as [|p|p|p]; cbn [worth]; auto.
  - assert (spl_fee p 0 = 0) as ->; [|rewrite Z.sub_0_r; apply Hsh]. unfold spl_fee, up.
    destruct (Z.eqb_spec (sp_fee_denom p) 0); auto.
  - rewrite Hsh, Z.mul_0_l. unfold down. rewrite Zdiv_0_l. reflexivity.
Qed.

(* ------------------------------------------------------------------ *)
Section Pool.
Context (R : RatioLib) (dp : Deploy) (pw : PWorld) (other : Env) (D : Derive) (C : Ctx) (SP : SPool) (w : World).
Notation E := (deployed_env R dp pw other).
Hypothesis HR : ratio_lib_ok R.
Hypothesis HT : pools_typed pw.
Hypothesis HDp : deploy_ok dp.
Hypothesis HF : flat_derive_ok (dp_flat dp).
Hypothesis HP : flat_reachable R (dp_flat dp) pw.
Hypothesis HD : derive_ok D.
Hypothesis Hreach : reachable D w.
Hypothesis Hsync : in_sync dp D SP w pw.
Hypothesis Hlen : Z.of_nat (length (jp_list SP)) <= U32_MAX.
Hypothesis Hready : calculators_ready dp pw SP.

Lemma the_l : the_list w = Some (jp_list SP). Proof. apply (is_list _ _ _ _ _ Hsync). Qed.
Lemma fresh_self ps : the_pool w = Some ps -> fresh w w.
Proof.
  intros Hp. split; [eauto|]. split; [|auto]. exists (jp_list SP), (jp_list SP). rewrite the_l. auto.
Qed.

Lemma find_ready_from_spec m l d ls ld : find_ready_from m l d = Ok (ls, ld) ->
  forall k, exists n, find_lst_from k m l = Ok (k + Z.of_nat n, ls) /\ nth_error l n = Some ls /\ nth_error d n = Some (Some ld).
Proof.
  revert d. induction l as [|x t IH]; intros [|y d]; cbn [find_ready_from find_lst_from]; intros H k; try discriminate.
  destruct (ls_mint x =? m).
  - apply bind_ok in H as (ld' & Hy & [= <- <-]). apply of_option_ok in Hy. exists O. rewrite Z.add_0_r. cbn. subst. auto.
  - destruct (IH _ H (k + 1)) as (n & H1 & H2 & H3). exists (S n). rewrite H1. cbn [nth_error]. split; auto. f_equal. f_equal. lia.
Qed.
Lemma Forall2_nth {A B} (Q : A -> B -> Prop) l d n a b : Forall2 Q l d -> nth_error l n = Some a -> nth_error d n = Some b -> Q a b.
Proof.
  intros H. revert n. induction H; intros [|n]; cbn; try discriminate; [|apply IHForall2].
  intros [= <-] [= <-]; auto.
Qed.

Lemma nth_combine {A B} (l : list A) (d : list B) n a b : nth_error l n = Some a -> nth_error d n = Some b ->
  nth_error (combine l d) n = Some (a, b).
Proof.
  revert d n. induction l as [|x t IH]; intros [|y d] [|n]; cbn; try discriminate; [congruence|apply IH].
Qed.
(** What is known of an LST the client can quote. *)
Record entry_facts (m : key) (i : Z) (ls : LstState) (ld : LstData) : Prop := {
  ef_look : looked_up D w w m i ls ls (reserves_of D w m) (fees_of D w m);
  ef_sync : entry_in_sync dp D w pw ls ld;
  ef_ready : calc_ready dp pw (ld_calc ld);
  ef_in : In m (ready_mints SP);
  ef_prog : is_token_program (w_owner w m) = true;
  ef_mint : is_mint w m (w_owner w m);
  ef_res : holds w (reserves_of D w m) m (w_owner w m);
  ef_fee : holds w (fees_of D w m) m (w_owner w m);
  ef_own : owned w (reserves_of D w m) POOL_STATE_ID;
  ef_ne : reserves_of D w m <> fees_of D w m }.
Lemma ready_entry ps m ls ld : the_pool w = Some ps -> find_ready_lst SP m = Ok (ls, ld) ->
  exists i, entry_facts m i ls ld.
Proof.
  intros Hp H. destruct (find_ready_from_spec _ _ _ _ _ H 0) as (n & H1 & H2 & H3). rewrite Z.add_0_l in H1.
  pose proof (Forall2_nth _ _ _ _ _ _ (is_data _ _ _ _ _ Hsync) H2 H3 ld eq_refl) as Hes.
  assert (Hrd : calc_ready dp pw (ld_calc ld)) by (apply Hready; eapply nth_error_In; eauto).
  pose proof (find_lst_spec _ _ _ _ _ H1) as (_ & _ & Hm).
  assert (Hli : listed w m) by (exists (jp_list SP), ls; rewrite the_l; eauto using nth_error_In).
  destruct (look_up D HD w w m Hreach (fresh_self ps Hp) Hli) as (i & lsv & ls' & r & f & L).
  pose proof (lu_find _ _ _ _ _ _ _ _ _ L _ the_l) as Hf. unfold try_find_lst_mint_on_list in Hf.
  rewrite H1 in Hf. injection Hf as <- <-.
  pose proof (lu_nth _ _ _ _ _ _ _ _ _ L _ the_l) as Hn. unfold nth_lst in Hn. rewrite Nat2Z.id, H2 in Hn.
  injection Hn as <-.
  pose proof (reachable_ata D HD w Hreach) as (Hata & Hat & _). specialize (Hat _ the_l).
  rewrite Forall_forall in Hat. destruct (Hat ls (nth_error_In _ _ H2)) as (Tp & Hmi & r0 & f0 & F1 & F2 & Tr & Tf).
  rewrite Hm in *. destruct HD as (Hfc & Hinj & _).
  pose proof (Hfc POOL_STATE_ID (w_owner w m) m) as C1. rewrite F1 in C1.
  pose proof (Hfc PROTOCOL_FEE_ID (w_owner w m) m) as C2. rewrite F2 in C2. cbn [fst snd] in C1, C2.
  assert (Er : r0 = r).
  { pose proof (lu_res _ _ _ _ _ _ _ _ _ L) as Hr. unfold create_pool_reserves_address in Hr. rewrite Hm, C1 in Hr.
    cbn in Hr. congruence. }
  assert (Ef : f0 = f).
  { pose proof (lu_pfa _ _ _ _ _ _ _ _ _ L) as Hr. unfold create_protocol_fee_accumulator_address in Hr. rewrite Hm, C2 in Hr.
    cbn in Hr. congruence. }
  subst r0 f0. exists (Z.of_nat n).
  assert (Hr : reserves_of D w m = r) by (unfold reserves_of; rewrite F1; auto).
  assert (Hff : fees_of D w m = f) by (unfold fees_of; rewrite F2; auto).
  constructor; rewrite ?Hr, ?Hff; auto.
  - unfold ready_mints. apply in_flat_map. exists (ls, Some ld). split; [|left; auto]. eapply nth_error_In with n. now apply nth_combine.
  - split; auto.
  - destruct (Hata _ _ _ _ _ (or_introl eq_refl) C1) as (_ & Ht). destruct (w_tok w r) as [t|] eqn:Et; [|congruence].
    destruct (Ht t eq_refl) as (? & ? & ?). split; [auto|]. exists t. rewrite Et. auto.
  - destruct (Hata _ _ _ _ _ (or_intror eq_refl) C2) as (_ & Ht). destruct (w_tok w f) as [t|] eqn:Et; [|congruence].
    destruct (Ht t eq_refl) as (? & ? & ?). split; [auto|]. exists t. rewrite Et. auto.
  - destruct (Hata _ _ _ _ _ (or_introl eq_refl) C1) as (_ & Ht). destruct (w_tok w r) as [t|] eqn:Et; [|congruence].
    destruct (Ht t eq_refl) as (? & ? & ?). exists t. rewrite Et. auto.
  - intros ->. destruct (Hinj _ _ _ _ _ _ _ _ _ C1 C2) as (? & _). discriminate.
Qed.

Lemma view_list : try_lst_state_list (jp_view SP) LST_STATE_LIST_ID = try_lst_state_list w LST_STATE_LIST_ID.
Proof. unfold try_lst_state_list. pose proof the_l as H. unfold the_list in H. rewrite H. cbn [jp_view w_list]. rewrite upd_same. reflexivity. Qed.
Lemma view_pool ps : the_pool w = Some ps -> try_pool_state (jp_view SP) POOL_STATE_ID = try_pool_state w POOL_STATE_ID.
Proof.
  intros Hp. unfold try_pool_state. cbn [jp_view w_pool]. rewrite upd_same. rewrite (is_pool _ _ _ _ _ Hsync). reflexivity.
Qed.
Lemma view_owner m i ls ld : find_ready_lst SP m = Ok (ls, ld) -> entry_facts m i ls ld -> w_owner (jp_view SP) m = w_owner w m.
Proof.
  intros H F. cbn [jp_view w_owner]. rewrite H. rewrite (es_token_program _ _ _ _ _ _ (ef_sync _ _ _ _ F)).
  rewrite (lu_mint _ _ _ _ _ _ _ _ _ (ef_look _ _ _ _ F)). reflexivity.
Qed.
Lemma kn_accounts_ok k : suffix_ok 1 (kn_ix_accounts dp k).
Proof. destruct k; unfold suffix_ok, len; cbn; unfold U8_MAX; lia. Qed.

(** The syncs before the trade find exactly the client's values. *)
Lemma sync_step w0 ps0 l0 m i i0 ls ld ps1 ls1 bal :
  w_tok w0 = w_tok w -> the_pool w0 = Some ps0 -> the_list w0 = Some l0 -> nth_lst l0 i0 = Some ls ->
  entry_facts m i ls ld -> apply_sync_sol_value (pw_epoch pw) ps0 ls ld = Ok (ps1, ls1, bal) ->
  sync_sol_value_unchecked E w0 POOL_STATE_ID LST_STATE_LIST_ID (reserves_of D w m) (kn_cpi dp (ld_calc ld)) m i0 =
    Ok (put_list (put_pool w0 POOL_STATE_ID (Some ps1)) LST_STATE_LIST_ID (Some (replace_nth l0 (Z.to_nat i0) ls1))) /\
  bal = balance w (reserves_of D w m) /\ (exists v, ps1 = set_total ps0 v) /\ U64 bal.
Proof.
  intros Ht Hp Hl Hn F H. destruct F as [L Hs Hr _ _ _ (Ho & t & Hr1 & Hr2) _ _ _].
  unfold apply_sync_sol_value in H. apply bind_ok in H as (b & Hb & H). apply of_option_ok in Hb.
  apply bind_ok in H as ((lo & hi) & Hv & H). apply bind_ok in H as ((ps' & ls') & Hw & H). injection H as -> -> ->.
  rewrite (es_reserves _ _ _ _ _ _ Hs) in Hb. pose proof (lu_mint _ _ _ _ _ _ _ _ _ L) as Hm. rewrite Hm in Hb.
  assert (Hbal : balance w (reserves_of D w m) = ta_amount t) by (unfold balance; now rewrite Hr1).
  assert (Hu : U64 bal).
  { injection Hb as <-. rewrite Hbal. pose proof (proj1 (reachable_inv D HD w Hreach)) as Hbi.
    apply (proj1 (base_u64 w Hbi) _ _ Hr1). }
  injection Hb as Hb. split; [|split; [auto|split; [|auto]]].
  - unfold sync_sol_value_unchecked, token_account_balance. rewrite Ht, Hr1. cbn [of_option bind].
    rewrite <- Hbal, Hb. assert (Hmm : kn_lst_mint dp (ld_calc ld) = m) by (rewrite (es_mint _ _ _ _ _ _ Hs); auto).
    rewrite <- Hmm at 1. rewrite (inv_l2s R dp pw other HT HDp w0 (ld_calc ld) bal (lo, hi)); auto; [|apply Hs].
    cbn [bind]. unfold try_pool_state, try_lst_state_list, the_pool, the_list in *. rewrite Hp, Hl. cbn [of_option bind].
    rewrite Hn. cbn [of_option bind fst] in *. rewrite Hw. reflexivity.
  - unfold sync_sol_value_with_retval in Hw. apply bind_ok in Hw as (x & _ & Hw). apply bind_ok in Hw as (y & _ & Hw).
    exists y. congruence.
Qed.
Lemma supply_max m : supply w m <= U64_MAX.
Proof.
  pose proof (proj1 (reachable_inv D HD w Hreach)) as Hbi. pose proof (proj2 (base_u64 w Hbi) m) as H. unfold supply.
  destruct (w_mint w m) as [x|]; [apply (H x eq_refl)|unfold U64_MAX; lia].
Qed.
(** Smaller reserves are valued too, and not higher. *)
Lemma kn_shrink m i ls ld b b' v hi : entry_facts m i ls ld -> 0 <= b' <= b ->
  kn_lst_to_sol (pw_epoch pw) (ld_calc ld) b = Ok (v, hi) ->
  exists v', kn_lst_to_sol (pw_epoch pw) (ld_calc ld) b' = Ok (v', v') /\ v' <= v.
Proof.
  intros F Hb H. unfold kn_lst_to_sol in *. apply bind_ok in H as (c & Hc & H). rewrite Hc. cbn [bind].
  assert (Ht : calc_typed c) by (eapply kn_calc_typed; eauto; apply F).
  apply calc_lst_to_sol_exact in H as (Ha & Hv); [|auto|lia]. exists (worth c b'). split.
  - apply calc_lst_to_sol_exact; [auto|lia|]. split; [|reflexivity]. eapply answers_down; eauto; lia.
  - assert (v = worth c b) as -> by congruence. apply worth_mono; [auto|eapply answers_fee; eauto|lia].
Qed.

Lemma entry_le w0 ps0 l0 n ls0 : base_inv w0 -> the_pool w0 = Some ps0 -> the_list w0 = Some l0 -> nth_error l0 n = Some ls0 ->
  0 <= sol_value ls0 <= total_sol_value ps0.
Proof.
  intros (l1 & au & Hl & _ & _ & _ & Ff & _ & P) Hp Hl0 Hn. assert (l1 = l0) by congruence. subst l1. rewrite Hp in P.
  destruct P as (_ & ->).
  assert (Ff' : Forall (fun x => 0 <= sol_value x) l0) by (eapply Forall_impl; [|exact Ff]; intros x Hx; unfold lst_ok, U64 in Hx; tauto).
  clear -Hn Ff'. revert n Hn. induction Ff' as [|a l Ha Hf IH]; intros [|n] H; try discriminate; cbn in *.
  - injection H as ->. split; [auto|]. assert (0 <= sumZ (map sol_value l)); [|lia]. clear -Hf. induction Hf; cbn; lia.
  - specialize (IH n H). lia.
Qed.

(** The syncs after the trade: the new figure, or a refusal that the new balance explains. *)
Lemma sync_after w0 ps0 l0 ls0 m i i0 ls ld : base_inv w0 -> the_pool w0 = Some ps0 -> the_list w0 = Some l0 ->
  nth_lst l0 i0 = Some ls0 -> w_tok w0 (reserves_of D w m) <> None -> entry_facts m i ls ld ->
  match sync_sol_value_unchecked E w0 POOL_STATE_ID LST_STATE_LIST_ID (reserves_of D w m) (kn_cpi dp (ld_calc ld)) m i0 with
  | Ok w' => exists v hi, kn_lst_to_sol (pw_epoch pw) (ld_calc ld) (balance w0 (reserves_of D w m)) = Ok (v, hi) /\
      the_pool w' = Some (set_total ps0 (total_sol_value ps0 - sol_value ls0 + v)) /\
      the_list w' = Some (replace_nth l0 (Z.to_nat i0) (set_sol_value ls0 v))
  | Err e => (e = ExternalErr \/ e = Ctl MathError) /\
      forall v hi, kn_lst_to_sol (pw_epoch pw) (ld_calc ld) (balance w0 (reserves_of D w m)) = Ok (v, hi) ->
        U64_MAX < total_sol_value ps0 - sol_value ls0 + v
  end.
Proof.
  intros Hbi Hps Hl Hn Ht F. pose proof (entry_le w0 ps0 l0 (Z.to_nat i0) ls0 Hbi Hps Hl Hn) as Hle.
  destruct (w_tok w0 (reserves_of D w m)) as [t|] eqn:Et; [|congruence].
  assert (HUt : U64 (ta_amount t)) by (apply (proj1 (base_u64 _ Hbi) _ _ Et)).
  destruct F as [L Hs Hrd _ _ _ _ _ _ _].
  assert (Hmm : kn_lst_mint dp (ld_calc ld) = m) by (rewrite (es_mint _ _ _ _ _ _ Hs); apply L).
  assert (Hbal : balance w0 (reserves_of D w m) = ta_amount t) by (unfold balance; now rewrite Et). rewrite Hbal.
  pose proof (es_pool _ _ _ _ _ _ Hs) as Hcs.
  unfold sync_sol_value_unchecked, token_account_balance. rewrite Et. cbn [of_option bind].
  replace (invoke_lst_to_sol E w0 (kn_cpi dp (ld_calc ld)) m (ta_amount t)) with
    (invoke_lst_to_sol E w0 (kn_cpi dp (ld_calc ld)) (kn_lst_mint dp (ld_calc ld)) (ta_amount t)) by (now rewrite Hmm).
  destruct (kn_lst_to_sol (pw_epoch pw) (ld_calc ld) (ta_amount t)) as [(v & hi)|e0] eqn:Ek.
  - rewrite (inv_l2s R dp pw other HT HDp w0 (ld_calc ld) (ta_amount t) (v, hi) Hcs Hrd HUt Ek). cbn [bind].
    unfold try_pool_state, try_lst_state_list, the_pool, the_list in *. rewrite Hps, Hl. cbn [of_option bind]. rewrite Hn.
    cbn [of_option bind]. unfold sync_sol_value_with_retval, checked_sub, checked_add.
    destruct (Z.leb_spec (sol_value ls0) (total_sol_value ps0)); [|lia]. cbn [bind].
    destruct (Z.leb_spec (total_sol_value ps0 - sol_value ls0 + v) U64_MAX); cbn [bind].
    + exists v, hi. cbn [put_list put_pool w_pool w_list]. rewrite !upd_same. auto.
    + split; [auto|]. intros v' hi' [= <- <-]. auto.
  - destruct (invoke_lst_to_sol E w0 (kn_cpi dp (ld_calc ld)) (kn_lst_mint dp (ld_calc ld)) (ta_amount t)) as [(v & hi)|e'] eqn:Ei.
    + exfalso. unfold invoke_lst_to_sol in Ei. apply decode_range_ok in Ei as (Ei & _). cbn [kn_cpi cpi_prog cpi_accs mk ro] in Ei.
      pose proof (chain_known_l2s R dp pw other HDp w0 (ld_calc ld) _ _ Hcs Ei). congruence.
    + cbn [bind]. split; [|discriminate]. left. eapply inv_l2s_err; eauto.
Qed.
Lemma apply_figures ep ps0 ls ld ps1 ls1 b : apply_sync_sol_value ep ps0 ls ld = Ok (ps1, ls1, b) ->
  ld_reserves ld = Some b /\ exists v hi, kn_lst_to_sol ep (ld_calc ld) b = Ok (v, hi) /\
    ps1 = set_total ps0 (total_sol_value ps0 - sol_value ls + v) /\ ls1 = set_sol_value ls v.
Proof.
  unfold apply_sync_sol_value. intros H. apply bind_ok in H as (b' & Hb & H). apply of_option_ok in Hb.
  apply bind_ok in H as ((lo & hi) & Hv & H). apply bind_ok in H as ((ps' & ls') & Hw & H). injection H as -> -> ->.
  split; [exact Hb|]. exists lo, hi. split; [exact Hv|]. cbn [fst] in Hw. unfold sync_sol_value_with_retval in Hw.
  apply bind_ok in Hw as (x & Hx & Hw). apply bind_ok in Hw as (y & Hy & Hw). apply checked_sub_ok in Hx. apply checked_add_ok in Hy.
  destruct Hx as (-> & _). destruct Hy as (-> & _). split; congruence.
Qed.

Lemma settle_out p q w2 st tp i ils ild j ols old ps2 l2 ls1 ls2 h1 h2 :
  let sm := p_source_mint p in let dm := p_destination_mint p in
  base_inv w2 -> the_pool w2 = Some ps2 -> the_list w2 = Some l2 -> nth_lst l2 i = Some ls1 -> nth_lst l2 j = Some ls2 ->
  Z.to_nat i <> Z.to_nat j ->
  kn_lst_to_sol (pw_epoch pw) (ld_calc ild) (balance w (reserves_of D w sm)) = Ok (sol_value ls1, h1) ->
  kn_lst_to_sol (pw_epoch pw) (ld_calc old) (balance w (reserves_of D w dm)) = Ok (sol_value ls2, h2) ->
  ((forall v hi, kn_lst_to_sol (pw_epoch pw) (ld_calc ild) (balance w (reserves_of D w sm) + q_in_amount q) = Ok (v, hi) ->
      U64_MAX < total_sol_value ps2 - sol_value ls1 + v) -> outgrown D SP w p q) ->
  (forall ps, the_pool w = Some ps -> sm <> lp_token_mint ps /\ dm <> lp_token_mint ps) ->
  w_tok w2 = w_tok w -> w_mint w2 = w_mint w -> w_owner w2 = w_owner w ->
  good w2 [reserves_of D w sm; reserves_of D w dm] [i; j] [] ->
  entry_facts sm i ils ild -> entry_facts dm j ols old -> sm <> dm ->
  0 <= q_in_amount q -> 0 <= q_out_amount q -> 0 <= tp ->
  q_out_amount q + tp <= U64_MAX -> q_out_amount q + tp <= balance w (reserves_of D w dm) ->
  out (late_refusal D SP w p q)
    (fun w' => swapped D w w' sm dm (p_source_token_account p) (p_destination_token_account p) (q_in_amount q) (q_out_amount q))
    (swap_settle E w2 (swap_accounts w (p_authority p) (p_source_token_account p) (p_destination_token_account p) sm dm
        (fees_of D w dm) (reserves_of D w sm) (reserves_of D w dm)) (kn_cpi dp (ld_calc ild)) (kn_cpi dp (ld_calc old))
        i j st (q_in_amount q) (q_out_amount q) tp).
Proof.
  intros sm dm Hbi Hps2 Hl2 Hn1 Hn2 Hij Hk1 Hk2 Hout Hnlp Ht2 Hm2 Ho2 G F1 F2 Hne Hsi Hso Htp Hmax Hliq.
  set (sa := p_source_token_account p). set (da := p_destination_token_account p).
  set (r := reserves_of D w sm). set (r' := reserves_of D w dm). set (f' := fees_of D w dm).
  set (si := q_in_amount q) in *. set (so := q_out_amount q) in *.
  assert (HB : forall k, balance w2 k = balance w k) by (intros k; unfold balance; now rewrite Ht2).
  assert (Hsh : shape w w2) by (apply shape_same; auto).
  assert (Hu2 : tokens_u64 w2).
  { pose proof (base_u64 w (proj1 (reachable_inv D HD w Hreach))) as (A & B). split; rewrite ?Ht2, ?Hm2; auto. }
  pose proof (ef_res _ _ _ _ F1) as Rr. pose proof (ef_res _ _ _ _ F2) as Rr'. pose proof (ef_fee _ _ _ _ F2) as Rf'.
  fold r in Rr. fold r' in Rr'. fold f' in Rf'. fold r r' in G. fold r' in Hliq.
  assert (Nrr : r <> r') by (eapply holds_ne; eauto). assert (Nrf : r <> f') by (eapply holds_ne; eauto).
  assert (Nfr : r' <> f') by (apply (ef_ne _ _ _ _ F2)).
  pose proof (supply_max dm) as Sdm. pose proof (supply_max sm) as Ssm.
  unfold swap_settle, sync_src, sync_dst, swap_accounts.
  cbn [sa_signer sa_src_lst_mint sa_dst_lst_mint sa_src_lst_acc sa_dst_lst_acc sa_protocol_fee_accumulator
    sa_src_lst_token_program sa_dst_lst_token_program sa_pool_state sa_lst_state_list sa_src_pool_reserves
    sa_dst_pool_reserves mk sg wr ro is_signer].
  unfold checked_add. destruct (Z.leb_spec (so + tp) U64_MAX); [|lia]. cbn [bind].
  assert (token_account_balance w2 r' = Ok (balance w r')) as ->.
  { destruct Rr' as (_ & t & Et & _). unfold token_account_balance, balance. rewrite Ht2, Et. reflexivity. }
  cbn [bind]. destruct (Z.leb_spec (so + tp) (balance w r')); [|lia]. cbn [guard].
  (* what a funded user brings *)
  assert (HU : funded w p q -> holds w sa sm (w_owner w sm) /\ owned w sa (p_authority p) /\ si <= balance w sa /\
            holds w da dm (w_owner w dm) /\ supply_sound w sm /\ supply_sound w dm).
  { intros ((t & T1 & T2 & T3 & T4 & T5) & (t' & U1 & U2 & U3) & S1 & S2 & _). repeat split; auto.
    - exists t; auto.
    - exists t; auto.
    - unfold balance. fold sa in T1. rewrite T1. exact T5.
    - exists t'; auto. }
  (* the user pays *)
  apply out_bind, out_intro.
  { intros e He. assert (e = TokenErr) as -> by (eapply transfer_err; eauto). left. split; [auto|].
    intros Fu. apply HU in Fu as (U1 & U2 & U3 & U4 & S1 & S2). eapply transfer_can; [| | | | | | |exact He].
    - apply F1.
    - eapply shape_holds; eauto.
    - eapply shape_holds; eauto.
    - eapply shape_mint; eauto. apply F1.
    - eapply shape_owned; eauto.
    - rewrite HB. auto.
    - intros N. rewrite HB. pose proof (sound_two _ _ _ _ _ _ S1 U1 Rr N). lia. }
  intros w3 T1. pose proof (transfer_shape _ _ _ _ _ _ _ _ _ T1) as Sh3.
  pose proof (transfer_good _ _ _ _ _ _ _ _ _ _ _ _ T1 G) as G3. pose proof (transfer_base _ _ _ _ _ _ _ _ _ Hsi T1 Hbi) as Hbi3.
  pose proof (transfer_ctl _ _ _ _ _ _ _ _ _ T1) as C3.
  apply transfer_balance in T1 as (B3 & M3 & _). assert (Hsh3 : shape w w3) by (eapply shape_trans; eauto).
  (* the protocol fee *)
  apply out_bind, out_intro.
  { intros e He. assert (e = TokenErr) as -> by (eapply transfer_err; eauto). left. split; [auto|].
    intros Fu. apply HU in Fu as (U1 & U2 & U3 & U4 & S1 & S2).
    assert (sa <> r' /\ sa <> f') as (N1 & N2) by (split; eapply holds_ne; eauto).
    eapply transfer_can; [| | | | | | |exact He].
    - apply F2.
    - eapply shape_holds; eauto.
    - eapply shape_holds; eauto.
    - eapply shape_mint; eauto. apply F2.
    - eapply shape_owned; eauto. apply F2.
    - rewrite B3, HB, !on_other by auto. lia.
    - intros _. rewrite B3, HB, !on_other by auto. pose proof (sound_two _ _ _ _ _ _ S2 Rf' Rr' (not_eq_sym Nfr)). lia. }
  intros w4 T2. pose proof (transfer_shape _ _ _ _ _ _ _ _ _ T2) as Sh4.
  pose proof (transfer_good _ _ _ _ _ _ _ _ _ _ _ _ T2 G3) as G4. pose proof (transfer_base _ _ _ _ _ _ _ _ _ Htp T2 Hbi3) as Hbi4.
  pose proof (transfer_ctl _ _ _ _ _ _ _ _ _ T2) as C4.
  apply transfer_balance in T2 as (B4 & M4 & _). assert (Hsh4 : shape w w4) by (eapply shape_trans; eauto).
  (* the user receives *)
  apply out_bind, out_intro.
  { intros e He. assert (e = TokenErr) as -> by (eapply transfer_err; eauto). left. split; [auto|].
    intros Fu. apply HU in Fu as (U1 & U2 & U3 & U4 & S1 & S2).
    assert (sa <> r' /\ sa <> f') as (N1 & N2) by (split; eapply holds_ne; eauto).
    assert (da <> sa /\ da <> r) as (N3 & N4) by (split; (eapply holds_ne; [exact U4| |apply not_eq_sym, Hne]); eauto).
    eapply transfer_can; [| | | | | | |exact He].
    - apply F2.
    - eapply shape_holds; eauto.
    - eapply shape_holds; eauto.
    - eapply shape_mint; eauto. apply F2.
    - eapply shape_owned; eauto. apply F2.
    - rewrite B4, B3, HB, on_same, !on_other by auto. lia.
    - intros N. rewrite B4, B3, HB, (on_other da sa), (on_other da r), (on_other da r') by auto.
      destruct (Z.eq_dec da f') as [->|N5].
      + rewrite on_same. pose proof (sound_two _ _ _ _ _ _ S2 Rf' Rr' (not_eq_sym Nfr)). lia.
      + rewrite on_other by auto. pose proof (sound_two _ _ _ _ _ _ S2 U4 Rr' (not_eq_sym N)). lia. }
  intros w5 T3. pose proof (transfer_good _ _ _ _ _ _ _ _ _ _ _ _ T3 G4) as G5.
  assert (Nrd : r <> da).
  { pose proof (transfer_inv _ _ _ _ _ _ _ _ _ T3) as (tf & tt' & tm & _ & _ & Hto & _ & _ & _ & _ & _ & Hmt & _).
    pose proof (shape_holds _ _ _ _ _ Hsh4 Rr) as (_ & t0 & Ht0 & Hm0). intros <-. apply Hne. congruence. }
  pose proof (transfer_base _ _ _ _ _ _ _ _ _ Hso T3 Hbi4) as Hbi5.
  pose proof (transfer_ctl _ _ _ _ _ _ _ _ _ T3) as C5. apply transfer_balance in T3 as (B5 & M5 & _).
  assert (Hps5 : the_pool w5 = Some ps2 /\ the_list w5 = Some l2).
  { destruct C3 as (? & ? & _), C4 as (? & ? & _), C5 as (? & ? & _). unfold the_pool, the_list in *. split; congruence. }
  destruct Hps5 as (Hps5 & Hl5).
  assert (B5r : 0 <= balance w5 r <= balance w r + si).
  { split.
    - unfold balance. destruct (w_tok w5 r) as [t|] eqn:Et; [apply (proj1 (base_u64 _ Hbi5) _ _ Et)|lia].
    - rewrite B5, B4, B3, HB. rewrite on_same, !(on_other r r'), (on_other r f') by auto.
      rewrite (on_other r da) by auto. assert (0 <= on r sa si) by (unfold on; destruct (r =? sa); lia). lia. }
  apply out_bind.
  pose proof (sync_after w5 ps2 l2 ls1 sm i i ils ild Hbi5 Hps5 Hl5 Hn1) as SA. fold r in SA.
  assert (Hr5 : w_tok w5 r <> None) by (destruct G5 as (_ & _ & G5 & _); apply G5; left; reflexivity).
  specialize (SA Hr5 F1).
  destruct (sync_sol_value_unchecked E w5 POOL_STATE_ID LST_STATE_LIST_ID r (kn_cpi dp (ld_calc ild)) sm i) as [w6|e] eqn:S1; cbn [out].
  2:{ right; left. destruct SA as (Hee & SA). split; [exact Hee|]. apply Hout. intros v hi Hv. fold si r in Hv.
      destruct (kn_shrink _ _ _ _ _ _ _ _ F1 B5r Hv) as (v' & Hv' & Hle). specialize (SA _ _ Hv'). lia. }
  destruct SA as (v6 & h6 & Hk6 & Hps6 & Hl6).
  pose proof (sync_good _ _ _ _ _ _ _ _ _ _ S1 G5) as G6. pose proof (sync_base _ _ _ _ _ _ _ S1 Hbi5) as Hbi6.
  apply sync_tok in S1 as (ST1 & SM1 & _).
  apply out_bind.
  assert (Hn6 : nth_lst (replace_nth l2 (Z.to_nat i) (set_sol_value ls1 v6)) j = Some ls2).
  { unfold nth_lst. rewrite nth_error_replace_other by congruence. exact Hn2. }
  pose proof (sync_after w6 _ _ ls2 dm j j ols old Hbi6 Hps6 Hl6 Hn6) as SA. fold r' in SA.
  assert (Hr6 : w_tok w6 r' <> None) by (destruct G6 as (_ & _ & G6 & _); apply G6; right; left; reflexivity).
  specialize (SA Hr6 F2).
  destruct (sync_sol_value_unchecked E w6 POOL_STATE_ID LST_STATE_LIST_ID r' (kn_cpi dp (ld_calc old)) dm j) as [w7|e] eqn:S2; cbn [out].
  2:{ exfalso. destruct SA as (_ & SA).
      assert (B6r : 0 <= balance w6 r' <= balance w r').
      { assert (balance w6 r' = balance w5 r') as -> by (unfold balance; now rewrite ST1). split.
        - unfold balance. destruct (w_tok w5 r') as [t|] eqn:Et; [apply (proj1 (base_u64 _ Hbi5) _ _ Et)|lia].
        - rewrite B5, B4, B3, HB, !on_same, (on_other r' f'), (on_other r' r) by auto.
          assert (0 <= on r' sa si) by (unfold on; destruct (r' =? sa); lia).
          assert (on r' da so <= so) by (unfold on; destruct (r' =? da); lia). lia. }
      destruct (kn_shrink _ _ _ _ _ _ _ _ F2 B6r Hk2) as (v' & Hv' & Hle). specialize (SA _ _ Hv').
      cbn [set_total total_sol_value] in SA.
      pose proof (proj2 (proj1 (base_pool _ _ Hbi6 Hps6))) as Hmx. cbn [set_total total_sol_value] in Hmx. lia. }
  pose proof (sync_good _ _ _ _ _ _ _ _ _ _ S2 G6) as G7. apply sync_tok in S2 as (ST2 & SM2 & _).
  apply out_bind. destruct G7 as (Gp & _). unfold pool_field, try_pool_state.
  destruct (w_pool w7 POOL_STATE_ID) as [ps7|]; [|congruence]. cbn [of_option bind out].
  apply out_guard; [intros _; right; right; left; split; [reflexivity|exact Hnlp]|intros _]. cbn [out]. split; [congruence|].
  exists tp. split; [auto|]. intros k. assert (balance w7 k = balance w5 k) as -> by (unfold balance; now rewrite ST2, ST1).
  rewrite B5, B4, B3, HB. fold sa da si so r r' f'. rewrite on_add. lia.
Qed.

(* ------------------------------------------------------------------ *)
(** ** Swaps *)
Lemma kn_cpi_eq m i ls ld : entry_facts m i ls ld ->
  mkCpi (ro (sol_value_calculator ls)) (skipn 1 (kn_ix_accounts dp (ld_calc ld))) = kn_cpi dp (ld_calc ld).
Proof. intros F. unfold kn_cpi. rewrite (es_calc _ _ _ _ _ _ (ef_sync _ _ _ _ F)). reflexivity. Qed.
Lemma kn_mint_eq m i ls ld : entry_facts m i ls ld -> kn_lst_mint dp (ld_calc ld) = m.
Proof. intros F. rewrite (es_mint _ _ _ _ _ _ (ef_sync _ _ _ _ F)). apply (lu_mint _ _ _ _ _ _ _ _ _ (ef_look _ _ _ _ F)). Qed.
Lemma ask_l2s_ok m i ls ld w0 x v : entry_facts m i ls ld -> U64 x -> kn_lst_to_sol (pw_epoch pw) (ld_calc ld) x = Ok v ->
  invoke_lst_to_sol E w0 (kn_cpi dp (ld_calc ld)) m x = Ok v /\ U64 (fst v) /\ U64 (snd v).
Proof.
  intros F Hx H. split.
  - rewrite <- (kn_mint_eq _ _ _ _ F). apply inv_l2s; auto; apply F.
  - unfold kn_lst_to_sol in H. apply bind_ok in H as (c & Hc & H). eapply l2s_u64; [|exact Hx|exact H].
    eapply kn_calc_typed; eauto. apply F.
Qed.
Lemma ask_s2l_ok m i ls ld w0 x v : entry_facts m i ls ld -> U64 x -> kn_sol_to_lst R (pw_epoch pw) (ld_calc ld) x = Ok v ->
  invoke_sol_to_lst E w0 (kn_cpi dp (ld_calc ld)) m x = Ok v /\ U64 (fst v) /\ U64 (snd v).
Proof.
  intros F Hx H. split.
  - rewrite <- (kn_mint_eq _ _ _ _ F). apply inv_s2l; auto; apply F.
  - unfold kn_sol_to_lst in H. apply bind_ok in H as (c & Hc & H). eapply s2l_u64; eauto.
Qed.
Lemma l2s_zero k v : calc_in_sync dp pw k -> kn_lst_to_sol (pw_epoch pw) k 0 = Ok v -> v = (0, 0).
Proof.
  intros Hs H. unfold kn_lst_to_sol in H. apply bind_ok in H as (c & Hc & H).
  apply calc_lst_to_sol_exact in H as (_ & ->); [|eapply kn_calc_typed; eauto|lia]. rewrite worth_zero. reflexivity.
Qed.
Lemma decode_u64_ok x : U64 x -> decode_u64 (Ok x) = Ok x.
Proof. intros H. unfold decode_u64. cbn [of_ext bind]. rewrite u64b_t by auto. reflexivity. Qed.
Lemma fee_nonneg a b x bps f : 0 <= bps -> 0 <= x -> 0 <= b -> calc_swap_protocol_fees a b x bps = Ok f -> 0 <= f.
Proof.
  intros H1 H2 H3 H. unfold calc_swap_protocol_fees in H. apply bind_ok in H as (y & Hy & H).
  assert (0 <= y).
  { unfold ceil_bps_fee, ceil_fee_charged in Hy. destruct (_ <? _); [discriminate|]. destruct (_ || _); [injection Hy as <-; lia|].
    injection Hy as <-. unfold ceil_div. apply Z.div_pos; [|unfold BPS_DENOMINATOR; lia]. assert (0 <= sat_sub a b) by (unfold sat_sub; destruct (b <=? a) eqn:Eb; [apply Z.leb_le in Eb|]; lia).
    unfold BPS_DENOMINATOR. nia. }
  unfold floor_apply in H. destruct (_ || _) eqn:Eo; [injection H as <-; lia|]. destruct (_ <=? _); [|discriminate].
  injection H as <-. apply orb_false_iff in Eo as (_ & Eo). apply Z.eqb_neq in Eo. apply Z.div_pos; [nia|lia].
Qed.

Section Swap.
Context (p : SwapParams) (ps : PoolState).
Let sm := p_source_mint p. Let dm := p_destination_mint p.
Hypothesis Hp : the_pool w = Some ps.
Hypothesis Hact : pool_active w.
Hypothesis Hne : sm <> dm.

Lemma jp_ps : jp_pool_state SP = Ok ps.
Proof. unfold jp_pool_state. rewrite (is_pool _ _ _ _ _ Hsync), Hp. reflexivity. Qed.
Lemma act : verify_not_rebalancing_and_not_disabled ps = Ok tt.
Proof. eapply active_ok; eauto. Qed.
Lemma pool_ranges : InvProofs.pool_ok ps.
Proof. eapply base_pool; eauto. apply (reachable_inv D HD w Hreach). Qed.
Lemma pricing pp : jp_pricing SP = Some pp -> pricing_in_sync dp pw pp (ready_mints SP) /\
  pricing_program ps = ff_id (dp_flat dp).
Proof. intros H. destruct (is_pricing _ _ _ _ _ Hsync pp H) as (H1 & H2). auto. Qed.

Lemma pos_ne i ils ild j ols old : entry_facts sm i ils ild -> entry_facts dm j ols old -> Z.to_nat i <> Z.to_nat j.
Proof.
  intros F1 F2 Hij. pose proof (lu_nth _ _ _ _ _ _ _ _ _ (ef_look _ _ _ _ F1) _ the_l) as N1.
  pose proof (lu_nth _ _ _ _ _ _ _ _ _ (ef_look _ _ _ _ F2) _ the_l) as N2. unfold nth_lst in *. rewrite Hij in N1.
  assert (ils = ols) as <- by congruence. apply Hne.
  rewrite <- (lu_mint _ _ _ _ _ _ _ _ _ (ef_look _ _ _ _ F1)), <- (lu_mint _ _ _ _ _ _ _ _ _ (ef_look _ _ _ _ F2)). reflexivity.
Qed.

(** The two syncs at the start. *)
Lemma two_syncs i ils ild j ols old ps1 ls1 b1 ps2 ls2 b2 : entry_facts sm i ils ild -> entry_facts dm j ols old ->
  apply_sync_sol_value (pw_epoch pw) ps ils ild = Ok (ps1, ls1, b1) ->
  apply_sync_sol_value (pw_epoch pw) ps1 ols old = Ok (ps2, ls2, b2) ->
  exists w1 w2,
    sync_sol_value_unchecked E w POOL_STATE_ID LST_STATE_LIST_ID (reserves_of D w sm) (kn_cpi dp (ld_calc ild)) sm i = Ok w1 /\
    sync_sol_value_unchecked E w1 POOL_STATE_ID LST_STATE_LIST_ID (reserves_of D w dm) (kn_cpi dp (ld_calc old)) dm j = Ok w2 /\
    w_tok w2 = w_tok w /\ w_mint w2 = w_mint w /\ w_owner w2 = w_owner w /\
    good w2 [reserves_of D w sm; reserves_of D w dm] [i; j] [] /\ the_pool w2 = Some ps2 /\
    b2 = balance w (reserves_of D w dm) /\ trading_protocol_fee_bps ps2 = trading_protocol_fee_bps ps /\
    b1 = balance w (reserves_of D w sm) /\ base_inv w2 /\
    exists l2, the_list w2 = Some l2 /\ nth_lst l2 i = Some ls1 /\ nth_lst l2 j = Some ls2.
Proof.
  intros F1 F2 A1 A2. pose proof (pos_ne _ _ _ _ _ _ F1 F2) as Hij.
  destruct (sync_step w ps (jp_list SP) sm i i ils ild ps1 ls1 b1 eq_refl Hp the_l
    (lu_nth _ _ _ _ _ _ _ _ _ (ef_look _ _ _ _ F1) _ the_l) F1 A1) as (S1 & Hb1 & (v1 & ->) & _).
  set (w1 := put_list _ _ _) in S1.
  assert (Hn : nth_lst (replace_nth (jp_list SP) (Z.to_nat i) ls1) j = Some ols).
  { unfold nth_lst. rewrite nth_error_replace_other by congruence.
    exact (lu_nth _ _ _ _ _ _ _ _ _ (ef_look _ _ _ _ F2) _ the_l). }
  destruct (sync_step w1 (set_total ps v1) (replace_nth (jp_list SP) (Z.to_nat i) ls1) dm j j ols old ps2 ls2 b2) as (S2 & Hb2 & (v2 & ->) & _); auto.
  set (w2 := put_list _ _ _) in S2. exists w1, w2.
  assert (G : good w [reserves_of D w sm; reserves_of D w dm] [i; j] []).
  { eapply good_swap; [exact Hp|apply the_l|apply F1|apply F2|intros ? []]. }
  pose proof (sync_good _ _ _ _ _ _ _ _ _ _ S1 G) as G1. pose proof (sync_good _ _ _ _ _ _ _ _ _ _ S2 G1) as G2.
  pose proof (sync_base _ _ _ _ _ _ _ S2 (sync_base _ _ _ _ _ _ _ S1 (proj1 (reachable_inv D HD w Hreach)))) as Hbi.
  pose proof (lu_nth _ _ _ _ _ _ _ _ _ (ef_look _ _ _ _ F1) _ the_l) as N1. unfold nth_lst in N1, Hn.
  repeat split; auto; try apply G2; try apply Hbi.
  exists (replace_nth (replace_nth (jp_list SP) (Z.to_nat i) ls1) (Z.to_nat j) ls2). split; [|split].
  - unfold w2, the_list. cbn [put_list w_list]. apply upd_same.
  - unfold nth_lst. rewrite nth_error_replace_other by congruence. eapply nth_error_replace_same; eauto.
  - unfold nth_lst. eapply nth_error_replace_same; eauto.
Qed.
(** What a swap must not push over 64 bits. *)
Lemma swap_outgrown q i ils ild j ols old ps1 ls1 b1 ps2 ls2 b2 : sm <> lp_token_mint ps -> dm <> lp_token_mint ps ->
  find_ready_lst SP sm = Ok (ils, ild) -> find_ready_lst SP dm = Ok (ols, old) ->
  entry_facts sm i ils ild -> entry_facts dm j ols old ->
  apply_sync_sol_value (pw_epoch pw) ps ils ild = Ok (ps1, ls1, b1) ->
  apply_sync_sol_value (pw_epoch pw) ps1 ols old = Ok (ps2, ls2, b2) ->
  b1 = balance w (reserves_of D w sm) -> b2 = balance w (reserves_of D w dm) ->
  (exists h1, kn_lst_to_sol (pw_epoch pw) (ld_calc ild) (balance w (reserves_of D w sm)) = Ok (sol_value ls1, h1)) /\
  (exists h2, kn_lst_to_sol (pw_epoch pw) (ld_calc old) (balance w (reserves_of D w dm)) = Ok (sol_value ls2, h2)) /\
  ((forall v hi, kn_lst_to_sol (pw_epoch pw) (ld_calc ild) (balance w (reserves_of D w sm) + q_in_amount q) = Ok (v, hi) ->
      U64_MAX < total_sol_value ps2 - sol_value ls1 + v) -> outgrown D SP w p q).
Proof.
  intros Es Ed Hi Ho F1 F2 A1 A2 Hb1 Hb2. apply apply_figures in A1 as (R1 & v1 & h1 & K1 & -> & ->).
  apply apply_figures in A2 as (R2 & v2 & h2 & K2 & -> & ->). cbn [set_total set_sol_value total_sol_value sol_value].
  rewrite <- Hb1, <- Hb2. split; [eauto|]. split; [eauto|]. intros Hv. exists ps, ils, ild. fold sm. repeat split; auto.
  intros v hi Hk. rewrite (is_epoch _ _ _ _ _ Hsync) in Hk. rewrite <- Hb1 in Hk. specialize (Hv v hi Hk).
  unfold rest_of_pool. fold dm. rewrite Ho, R2, (is_epoch _ _ _ _ _ Hsync), K2.
  destruct (Z.eqb_spec dm (lp_token_mint ps)); [contradiction|]. lia.
Qed.

Lemma swap_in_out q : sm <> lp_token_mint ps -> dm <> lp_token_mint ps -> quote_swap_exact_in R SP sm dm (p_in_amount p) = Ok q -> U64 (p_in_amount p) -> accepts p ExactIn q ->
  exists t, swap_exact_in_ix dp D SP p = Ok t /\
    out (late_refusal D SP w p q) (fun w' => swapped D w w' sm dm (p_source_token_account p) (p_destination_token_account p)
      (q_in_amount q) (q_out_amount q)) (run D E C w t).
Proof.
  intros Es Ed H Hin (Ha1 & Ha2). unfold quote_swap_exact_in in H. rewrite jp_ps, (is_epoch _ _ _ _ _ Hsync) in H. cbn [bind] in H.
  apply bind_ok in H as (pp & Hpp & H). unfold jp_pricing_prog in Hpp. apply of_option_ok in Hpp.
  destruct (pricing pp Hpp) as (HS & Hprog).
  apply bind_ok in H as ((ils & ild) & Hi & H). apply guard_ok in H as (Hdis & H).
  apply bind_ok in H as (((ps1 & ls1) & b1) & A1 & H). apply bind_ok in H as ((ols & old) & Ho & H).
  apply bind_ok in H as (((ps2 & ls2) & b2) & A2 & H).
  apply bind_ok in H as ((in_sol & in_hi) & V1 & H). cbn [fst] in H. apply guard_ok in H as (Hz1 & H).
  apply bind_ok in H as (out_sol & P1 & H). apply guard_ok in H as (_ & H).
  apply bind_ok in H as ((dst_out & dst_hi) & V2 & H). cbn [fst] in H. apply guard_ok in H as (Hz2 & H).
  apply bind_ok in H as (fee & Hfee & H). apply bind_ok in H as (tot & Htot & H). apply guard_ok in H as (Hliq & H).
  apply bind_ok in H as ((fa & fp) & _ & H). injection H as <-. cbn [q_in_amount q_out_amount] in *.
  destruct (ready_entry ps sm ils ild Hp Hi) as (i & F1). destruct (ready_entry ps dm ols old Hp Ho) as (j & F2).
  destruct (two_syncs _ _ _ _ _ _ _ _ _ _ _ _ F1 F2 A1 A2) as (w1 & w2 & S1 & S2 & T2 & M2 & O2 & G2 & P2 & Hb2 & Hbps & Hb1 & Hbi2 & l2 & Hl2 & Hn1 & Hn2).
  pose proof (ef_look _ _ _ _ F1) as L1. pose proof (ef_look _ _ _ _ F2) as L2.
  destruct (ask_l2s_ok _ _ _ _ w2 _ _ F1 Hin V1) as (I1 & Uin & _). cbn [fst] in Uin.
  assert (Uout : U64 out_sol) by (eapply in_u64; eauto; [apply F1|apply F2]).
  destruct (ask_s2l_ok _ _ _ _ w2 _ _ F2 Uout V2) as (I2 & Udst & _). cbn [fst] in Udst.
  set (sgn := p_authority p). set (sa := p_source_token_account p). set (da := p_destination_token_account p).
  pose proof (kn_accounts_ok (ld_calc ild)) as K1. pose proof (kn_accounts_ok (ld_calc old)) as K2.
  set (sacc := kn_ix_accounts dp (ld_calc ild)) in *. set (dacc := kn_ix_accounts dp (ld_calc old)) in *.
  set (pacc := [ro sm; ro dm; ro (fst (fd_find (dp_flat dp) sm)); ro (fst (fd_find (dp_flat dp) dm))]).
  set (args := mkSwapIn (len sacc) (len dacc) i j (p_out_amount p) (p_in_amount p)).
  set (metas := swap_metas w sgn sa da sm dm (fees_of D w dm) (reserves_of D w sm) (reserves_of D w dm) ++
         ((ro (sol_value_calculator ils) :: skipn 1 sacc) ++ (ro (sol_value_calculator ols) :: skipn 1 dacc)) ++
         (ro (pricing_program ps) :: skipn 2 pacc)).
  assert (Hb : swap_exact_in_ix dp D SP p = Ok (built metas (SwapExactIn args))).
  { unfold swap_exact_in_ix. fold sm dm. rewrite Hi. cbn [bind]. rewrite Ho. cbn [bind]. rewrite jp_ps. cbn [bind].
    unfold jp_pricing_prog. rewrite Hpp. cbn [of_option bind].
    rewrite (swap_accounts_known R dp pw HF HP pp _ HS) by (first [apply F1|apply F2]). cbn [bind].
    fold sgn sa da sacc dacc pacc.
    unfold client_swap_exact_in.
    assert (client_swap_keys D (jp_view SP) sgn sa da sm dm LST_STATE_LIST_ID =
            client_swap_keys D w sgn sa da sm dm LST_STATE_LIST_ID) as ->.
    { unfold client_swap_keys. rewrite view_list, (view_owner _ _ _ _ Hi F1), (view_owner _ _ _ _ Ho F2). reflexivity. }
    rewrite (swap_keys_ok D w w (fresh_self ps Hp) _ _ _ _ _ _ _ _ _ _ _ _ _ _ _ L1 L2). cbn [bind].
    rewrite (u32_idx D w w _ _ _ _ _ _ L1). cbn [bind]. rewrite (u32_idx D w w _ _ _ _ _ _ L2). cbn [bind].
    rewrite src_dst_ok by assumption. cbn [bind].
    rewrite suffix_group2 by (unfold pacc, len; cbn; unfold U8_MAX; lia). reflexivity. }
  exists (built metas (SwapExactIn args)). split; [exact Hb|].
  destruct (suffix_group 0 sacc (sol_value_calculator ils) K1) as (_ & Hlen1 & Hu81).
  destruct (suffix_group 0 dacc (sol_value_calculator ols) K2) as (_ & Hlen2 & Hu82).
  assert (Hwf : ix_wfb (SwapExactIn args) = true).
  { unfold args. cbn [ix_wfb si_src_lst_value_calc_accs si_dst_lst_value_calc_accs si_src_lst_index si_dst_lst_index
      si_min_amount_out si_amount]. rewrite Hu81, Hu82, (lu_range _ _ _ _ _ _ _ _ _ L1), (lu_range _ _ _ _ _ _ _ _ _ L2).
    rewrite !u64b_t; [reflexivity|auto|]. unfold U64 in *. lia. }
  rewrite run_built by exact Hwf. unfold process. rewrite Hwf. cbn [guard].
  pose proof (verify_swap_built D w w ps _ Hp the_l _ _ _ _ _ _ _ _ _ _ _ _ sgn sa da _ _
    (ro (pricing_program ps) :: skipn 2 pacc) _ _ _ L1 L2
    Hlen1 (len_nonneg _) Hlen2 (len_nonneg _) _ _ _ eq_refl eq_refl eq_refl eq_refl) as Hver. fold metas in Hver.
  unfold process_swap_exact_in. cbn [args si_src_lst_value_calc_accs si_dst_lst_value_calc_accs si_src_lst_index
    si_dst_lst_index si_min_amount_out si_amount].
  assert (Hnz : negb (p_in_amount p =? 0) = true).
  { apply negb_true_iff, Z.eqb_neq. intros Hz. rewrite Hz in V1. apply l2s_zero in V1; [|apply F1]. injection V1 as -> _.
    discriminate. }
  rewrite Hnz. cbn [guard]. fold metas. rewrite Hver.
  unfold verify_swap_not_same_lst. destruct (Z.eqb_spec sm dm); [contradiction|]. cbn [negb guard bind].
  rewrite act. cbn [bind]. unfold verify_lst_input_not_disabled. rewrite Hdis. cbn [guard bind].
  rewrite (kn_cpi_eq _ _ _ _ F1 : mkCpi (ro (sol_value_calculator ils)) (skipn 1 sacc) = _),
    (kn_cpi_eq _ _ _ _ F2 : mkCpi (ro (sol_value_calculator ols)) (skipn 1 dacc) = _).
  unfold sync_src, sync_dst, swap_accounts.
  cbn [sa_signer sa_src_lst_mint sa_dst_lst_mint sa_src_lst_acc sa_dst_lst_acc sa_protocol_fee_accumulator
    sa_src_lst_token_program sa_dst_lst_token_program sa_pool_state sa_lst_state_list sa_src_pool_reserves
    sa_dst_pool_reserves mk sg wr ro is_signer].
  rewrite S1. cbn [bind]. rewrite S2. cbn [bind].
  unfold pool_field. rewrite (pool_ok w2 ps2 P2). cbn [bind]. rewrite I1. cbn [bind].
  rewrite Hz1. cbn [guard].
  assert (invoke_price_exact_in E w2 (mkCpi (ro (pricing_program ps)) (skipn 2 pacc)) sm dm (p_in_amount p) in_sol = Ok out_sol) as ->.
  { unfold invoke_price_exact_in. cbn [cpi_prog cpi_accs mk ro]. rewrite Hprog.
    change (skipn 2 pacc) with (fee_metas dp sm dm).
    rewrite (proj2 (price_in_iff R dp pw other HF HP pp _ HS w2 sm dm (p_in_amount p) in_sol out_sol (ef_in _ _ _ _ F1) (ef_in _ _ _ _ F2)) P1).
    apply decode_u64_ok; auto. }
  cbn [bind]. rewrite I2. cbn [bind]. destruct (Z.leb_spec (p_out_amount p) dst_out); [|lia]. cbn [guard].
  rewrite Hz2. cbn [guard]. rewrite Hfee. cbn [bind].
  destruct (swap_outgrown (mkQuote (p_in_amount p) dst_out dm fa fp) _ _ _ _ _ _ _ _ _ _ _ _ Es Ed Hi Ho F1 F2 A1 A2 Hb1 Hb2)
    as ((h1 & Hk1) & (h2 & Hk2) & Hog).
  apply (settle_out p (mkQuote (p_in_amount p) dst_out dm fa fp)) with (ils := ils) (ols := ols) (ps2 := ps2) (l2 := l2) (ls1 := ls1) (ls2 := ls2) (h1 := h1) (h2 := h2);
    auto; try (eapply pos_ne; eassumption);
    try (intros ps' Hps'; assert (ps' = ps) as -> by congruence; split; assumption);
    cbn [q_in_amount q_out_amount]; try (unfold U64 in *; lia).
  - eapply fee_nonneg; [| | |exact Hfee]; [|unfold U64 in *; lia|unfold U64 in *; lia].
    rewrite Hbps. apply pool_ranges.
  - apply checked_add_ok in Htot. lia.
  - apply checked_add_ok in Htot. apply Z.leb_le in Hliq. destruct Htot as (-> & _). fold dm. rewrite <- Hb2. lia.
Qed.
Lemma swap_out_out q : sm <> lp_token_mint ps -> dm <> lp_token_mint ps -> quote_swap_exact_out R SP sm dm (p_out_amount p) = Ok q -> U64 (p_out_amount p) -> accepts p ExactOut q ->
  exists t, swap_exact_out_ix dp D SP p = Ok t /\
    out (late_refusal D SP w p q) (fun w' => swapped D w w' sm dm (p_source_token_account p) (p_destination_token_account p)
      (q_in_amount q) (q_out_amount q)) (run D E C w t).
Proof.
  intros Es Ed H Hin (Ha1 & Ha2). unfold quote_swap_exact_out in H. rewrite jp_ps, (is_epoch _ _ _ _ _ Hsync) in H. cbn [bind] in H.
  apply bind_ok in H as (pp & Hpp & H). unfold jp_pricing_prog in Hpp. apply of_option_ok in Hpp.
  destruct (pricing pp Hpp) as (HS & Hprog).
  apply bind_ok in H as ((ils & ild) & Hi & H). apply guard_ok in H as (Hdis & H).
  apply bind_ok in H as (((ps1 & ls1) & b1) & A1 & H). apply bind_ok in H as ((ols & old) & Ho & H).
  apply bind_ok in H as (((ps2 & ls2) & b2) & A2 & H).
  apply bind_ok in H as ((out_lo & out_sol) & V1 & H). cbn [snd] in H. apply guard_ok in H as (Hz1 & H).
  apply bind_ok in H as (in_sol & P1 & H). apply guard_ok in H as (_ & H).
  apply bind_ok in H as ((src_lo & src_in) & V2 & H). cbn [snd] in H. apply guard_ok in H as (Hz2 & H).
  apply bind_ok in H as (fee & Hfee & H). apply bind_ok in H as (tot & Htot & H). apply guard_ok in H as (Hliq & H).
  apply bind_ok in H as ((fa & fp) & _ & H). injection H as <-. cbn [q_in_amount q_out_amount] in *.
  destruct (ready_entry ps sm ils ild Hp Hi) as (i & F1). destruct (ready_entry ps dm ols old Hp Ho) as (j & F2).
  destruct (two_syncs _ _ _ _ _ _ _ _ _ _ _ _ F1 F2 A1 A2) as (w1 & w2 & S1 & S2 & T2 & M2 & O2 & G2 & P2 & Hb2 & Hbps & Hb1 & Hbi2 & l2 & Hl2 & Hn1 & Hn2).
  pose proof (ef_look _ _ _ _ F1) as L1. pose proof (ef_look _ _ _ _ F2) as L2.
  destruct (ask_l2s_ok _ _ _ _ w2 _ _ F2 Hin V1) as (I1 & _ & Uout). cbn [snd] in Uout.
  assert (Uin : U64 in_sol) by (eapply out_u64; eauto; [apply F1|apply F2]).
  destruct (ask_s2l_ok _ _ _ _ w2 _ _ F1 Uin V2) as (I2 & _ & Usrc). cbn [snd] in Usrc.
  set (sgn := p_authority p). set (sa := p_source_token_account p). set (da := p_destination_token_account p).
  pose proof (kn_accounts_ok (ld_calc ild)) as K1. pose proof (kn_accounts_ok (ld_calc old)) as K2.
  set (sacc := kn_ix_accounts dp (ld_calc ild)) in *. set (dacc := kn_ix_accounts dp (ld_calc old)) in *.
  set (pacc := [ro sm; ro dm; ro (fst (fd_find (dp_flat dp) sm)); ro (fst (fd_find (dp_flat dp) dm))]).
  set (args := mkSwapOut (len sacc) (len dacc) i j (p_in_amount p) (p_out_amount p)).
  set (metas := swap_metas w sgn sa da sm dm (fees_of D w dm) (reserves_of D w sm) (reserves_of D w dm) ++
         ((ro (sol_value_calculator ils) :: skipn 1 sacc) ++ (ro (sol_value_calculator ols) :: skipn 1 dacc)) ++
         (ro (pricing_program ps) :: skipn 2 pacc)).
  assert (Hb : swap_exact_out_ix dp D SP p = Ok (built metas (SwapExactOut args))).
  { unfold swap_exact_out_ix. fold sm dm. rewrite Hi. cbn [bind]. rewrite Ho. cbn [bind]. rewrite jp_ps. cbn [bind].
    unfold jp_pricing_prog. rewrite Hpp. cbn [of_option bind].
    rewrite (swap_accounts_known R dp pw HF HP pp _ HS) by (first [apply F1|apply F2]). cbn [bind].
    fold sgn sa da sacc dacc pacc.
    unfold client_swap_exact_out.
    assert (client_swap_keys D (jp_view SP) sgn sa da sm dm LST_STATE_LIST_ID =
            client_swap_keys D w sgn sa da sm dm LST_STATE_LIST_ID) as ->.
    { unfold client_swap_keys. rewrite view_list, (view_owner _ _ _ _ Hi F1), (view_owner _ _ _ _ Ho F2). reflexivity. }
    rewrite (swap_keys_ok D w w (fresh_self ps Hp) _ _ _ _ _ _ _ _ _ _ _ _ _ _ _ L1 L2). cbn [bind].
    rewrite (u32_idx D w w _ _ _ _ _ _ L1). cbn [bind]. rewrite (u32_idx D w w _ _ _ _ _ _ L2). cbn [bind].
    rewrite src_dst_ok by assumption. cbn [bind].
    rewrite suffix_group2 by (unfold pacc, len; cbn; unfold U8_MAX; lia). reflexivity. }
  exists (built metas (SwapExactOut args)). split; [exact Hb|].
  destruct (suffix_group 0 sacc (sol_value_calculator ils) K1) as (_ & Hlen1 & Hu81).
  destruct (suffix_group 0 dacc (sol_value_calculator ols) K2) as (_ & Hlen2 & Hu82).
  assert (Hwf : ix_wfb (SwapExactOut args) = true).
  { unfold args. cbn [ix_wfb so_src_lst_value_calc_accs so_dst_lst_value_calc_accs so_src_lst_index so_dst_lst_index
      so_max_amount_in so_amount]. rewrite Hu81, Hu82, (lu_range _ _ _ _ _ _ _ _ _ L1), (lu_range _ _ _ _ _ _ _ _ _ L2).
    rewrite !u64b_t; [reflexivity|auto|]. unfold U64 in *. lia. }
  rewrite run_built by exact Hwf. unfold process. rewrite Hwf. cbn [guard].
  pose proof (verify_swap_built D w w ps _ Hp the_l _ _ _ _ _ _ _ _ _ _ _ _ sgn sa da _ _
    (ro (pricing_program ps) :: skipn 2 pacc) _ _ _ L1 L2
    Hlen1 (len_nonneg _) Hlen2 (len_nonneg _) _ _ _ eq_refl eq_refl eq_refl eq_refl) as Hver. fold metas in Hver.
  unfold process_swap_exact_out. cbn [args so_src_lst_value_calc_accs so_dst_lst_value_calc_accs so_src_lst_index
    so_dst_lst_index so_max_amount_in so_amount].
  assert (Hnz : negb ((p_out_amount p =? 0) || (p_in_amount p =? 0)) = true).
  { apply negb_true_iff, orb_false_iff. apply negb_true_iff, Z.eqb_neq in Hz2. split; apply Z.eqb_neq.
    - intros Hz. rewrite Hz in V1. apply l2s_zero in V1; [|apply F2]. injection V1 as _ ->. discriminate.
    - unfold U64 in *. lia. }
  rewrite Hnz. cbn [guard]. fold metas. rewrite Hver.
  unfold verify_swap_not_same_lst. destruct (Z.eqb_spec sm dm); [contradiction|]. cbn [negb guard bind].
  rewrite act. cbn [bind]. unfold verify_lst_input_not_disabled. rewrite Hdis. cbn [guard bind].
  rewrite (kn_cpi_eq _ _ _ _ F1 : mkCpi (ro (sol_value_calculator ils)) (skipn 1 sacc) = _),
    (kn_cpi_eq _ _ _ _ F2 : mkCpi (ro (sol_value_calculator ols)) (skipn 1 dacc) = _).
  unfold sync_src, sync_dst, swap_accounts.
  cbn [sa_signer sa_src_lst_mint sa_dst_lst_mint sa_src_lst_acc sa_dst_lst_acc sa_protocol_fee_accumulator
    sa_src_lst_token_program sa_dst_lst_token_program sa_pool_state sa_lst_state_list sa_src_pool_reserves
    sa_dst_pool_reserves mk sg wr ro is_signer].
  rewrite S1. cbn [bind]. rewrite S2. cbn [bind].
  unfold pool_field. rewrite (pool_ok w2 ps2 P2). cbn [bind]. rewrite I1. cbn [bind].
  rewrite Hz1. cbn [guard].
  assert (invoke_price_exact_out E w2 (mkCpi (ro (pricing_program ps)) (skipn 2 pacc)) sm dm (p_out_amount p) out_sol = Ok in_sol) as ->.
  { unfold invoke_price_exact_out. cbn [cpi_prog cpi_accs mk ro]. rewrite Hprog.
    change (skipn 2 pacc) with (fee_metas dp sm dm).
    rewrite (proj2 (price_out_iff R dp pw other HF HP pp _ HS w2 sm dm (p_out_amount p) out_sol in_sol (ef_in _ _ _ _ F1) (ef_in _ _ _ _ F2)) P1).
    apply decode_u64_ok; auto. }
  cbn [bind]. rewrite I2. cbn [bind]. destruct (Z.leb_spec src_in (p_in_amount p)); [|lia]. cbn [guard].
  rewrite Hz2. cbn [guard]. rewrite Hfee. cbn [bind].
  destruct (swap_outgrown (mkQuote src_in (p_out_amount p) dm fa fp) _ _ _ _ _ _ _ _ _ _ _ _ Es Ed Hi Ho F1 F2 A1 A2 Hb1 Hb2)
    as ((h1 & Hk1) & (h2 & Hk2) & Hog).
  apply (settle_out p (mkQuote src_in (p_out_amount p) dm fa fp)) with (ils := ils) (ols := ols) (ps2 := ps2) (l2 := l2) (ls1 := ls1) (ls2 := ls2) (h1 := h1) (h2 := h2);
    auto; try (eapply pos_ne; eassumption);
    try (intros ps' Hps'; assert (ps' = ps) as -> by congruence; split; assumption);
    cbn [q_in_amount q_out_amount]; try (unfold U64 in *; lia).
  - eapply fee_nonneg; [| | |exact Hfee]; [|unfold U64 in *; lia|unfold U64 in *; lia].
    rewrite Hbps. apply pool_ranges.
  - apply checked_add_ok in Htot. lia.
  - apply checked_add_ok in Htot. apply Z.leb_le in Hliq. destruct Htot as (-> & _). fold dm. rewrite <- Hb2. lia.
Qed.

(* ------------------------------------------------------------------ *)
(** ** Liquidity *)
Let lpm := lp_token_mint ps.
Lemma lp_facts : w_owner w lpm = SPL_TOKEN_ID /\ exists i, w_mint w lpm = Some i /\ m_auth i = Some POOL_STATE_ID /\
  supply w lpm = m_supply i /\ U64 (m_supply i).
Proof.
  pose proof (reachable_ata D HD w Hreach) as (_ & _ & H). destruct (H ps Hp) as (H1 & i & H2 & H3). split; [exact H1|].
  exists i. repeat split; auto; try (unfold supply; fold lpm in H2; rewrite H2; reflexivity);
  pose proof (base_u64 w (proj1 (reachable_inv D HD w Hreach))) as (_ & B); destruct (B _ _ H2); auto.
Qed.
Lemma sync_total m i ls ld ps1 ls1 b1 : entry_facts m i ls ld ->
  apply_sync_sol_value (pw_epoch pw) ps ls ld = Ok (ps1, ls1, b1) -> U64 (total_sol_value ps1).
Proof.
  intros F H. pose proof H as H0.
  pose proof (sync_step w ps (jp_list SP) m i i ls ld ps1 ls1 b1 eq_refl Hp the_l
    (lu_nth _ _ _ _ _ _ _ _ _ (ef_look _ _ _ _ F) _ the_l) F H0) as (_ & _ & _ & Hu).
  unfold apply_sync_sol_value in H. apply bind_ok in H as (b & Hb & H). apply bind_ok in H as (v & Hv & H).
  apply bind_ok in H as ((ps' & ls') & Hw & H). injection H as -> -> ->.
  destruct (ask_l2s_ok _ _ _ _ w _ _ F Hu Hv) as (_ & Ulo & _).
  unfold sync_sol_value_with_retval in Hw. apply bind_ok in Hw as (x & Hx & Hw). apply bind_ok in Hw as (y & Hy & Hw).
  injection Hw as <- _. cbn [set_total total_sol_value]. apply checked_sub_ok in Hx. apply checked_add_ok in Hy.
  unfold U64 in *. lia.
Qed.
Lemma one_sync m i ls ld ps1 ls1 b1 : entry_facts m i ls ld ->
  apply_sync_sol_value (pw_epoch pw) ps ls ld = Ok (ps1, ls1, b1) ->
  exists w1,
    sync_sol_value_unchecked E w POOL_STATE_ID LST_STATE_LIST_ID (reserves_of D w m) (kn_cpi dp (ld_calc ld)) m i = Ok w1 /\
    w_tok w1 = w_tok w /\ w_mint w1 = w_mint w /\ w_owner w1 = w_owner w /\
    good w1 [reserves_of D w m] [i] [lpm] /\ the_pool w1 = Some ps1 /\
    b1 = balance w (reserves_of D w m) /\ lp_protocol_fee_bps ps1 = lp_protocol_fee_bps ps /\ base_inv w1 /\
    exists l1, the_list w1 = Some l1 /\ nth_lst l1 i = Some ls1.
Proof.
  intros F A.
  destruct (sync_step w ps (jp_list SP) m i i ls ld ps1 ls1 b1 eq_refl Hp the_l
    (lu_nth _ _ _ _ _ _ _ _ _ (ef_look _ _ _ _ F) _ the_l) F A) as (S1 & Hb & (v1 & ->) & _).
  set (w1 := put_list _ _ _) in S1. exists w1.
  assert (G : good w [reserves_of D w m] [i] [lpm]).
  { eapply good_liq; [exact Hp|apply the_l|apply F|]. intros x [<-|[]]. destruct lp_facts as (_ & y & Hy & _). congruence. }
  pose proof (sync_good _ _ _ _ _ _ _ _ _ _ S1 G) as G1.
  pose proof (sync_base _ _ _ _ _ _ _ S1 (proj1 (reachable_inv D HD w Hreach))) as Hbi.
  repeat split; auto; try apply G1; try apply Hbi.
  exists (replace_nth (jp_list SP) (Z.to_nat i) ls1). split.
  - unfold w1, the_list. cbn [put_list w_list]. apply upd_same.
  - unfold nth_lst. eapply nth_error_replace_same.
    exact (lu_nth _ _ _ _ _ _ _ _ _ (ef_look _ _ _ _ F) _ the_l).
Qed.
Lemma lp_u64 a b c r : 0 <= a -> 0 <= b -> U64 c -> calc_lp_tokens_to_mint a b c = Ok r -> U64 r.
Proof.
  unfold calc_lp_tokens_to_mint. intros Ha Hb Hc. destruct (a =? 0); [intros H; apply checked_add_ok in H; unfold U64 in *; lia|].
  destruct (b =? 0); [intros [= <-]; auto|]. intros H. pose proof (floor_apply_nonneg _ _ _ _ Ha Hb (proj1 Hc) H).
  apply floor_apply_ok in H as (H & _). split; auto.
Qed.
Lemma lp_value_u64 a b c r : 0 <= a -> 0 <= b -> 0 <= c -> calc_lp_tokens_sol_value a b c = Ok r -> U64 r.
Proof.
  unfold calc_lp_tokens_sol_value. intros Ha Hb Hc. destruct (_ || _); [intros [= <-]; unfold U64, U64_MAX; lia|].
  intros H. pose proof (floor_apply_nonneg _ _ _ _ Hb Ha Hc H). apply floor_apply_ok in H as (H & _). split; auto.
Qed.
Lemma on_zero k x : on k x 0 = 0. Proof. unfold on. destruct (_ =? _); auto. Qed.
Lemma no_add_fee x v bps r : 0 <= bps <= BPS_DENOMINATOR -> 0 <= x <= U64_MAX -> calc_add_liquidity_protocol_fees x v v bps = r -> r = Ok (x, 0).
Proof.
  intros Hb Hx <-. unfold calc_add_liquidity_protocol_fees, ceil_bps_fee, ceil_fee_charged, sat_sub.
  rewrite Z.leb_refl, Z.sub_diag. destruct (Z.ltb_spec BPS_DENOMINATOR bps); [lia|].
  assert (Hc : (if (bps =? 0) || (BPS_DENOMINATOR =? 0) then Ok 0 else Ok (ceil_div (0 * bps) BPS_DENOMINATOR)) = Ok 0 :> res Z).
  { destruct (_ || _); [reflexivity|]. unfold ceil_div. rewrite Z.mul_0_l. reflexivity. }
  rewrite Hc. cbn [bind].
  assert (Hf : floor_apply x v 0 = Ok 0).
  { unfold floor_apply. rewrite Z.mul_0_l, Zdiv_0_l. destruct ((x =? 0) || (v =? 0)); reflexivity. }
  rewrite Hf. cbn [bind]. unfold checked_sub. destruct (Z.leb_spec 0 x); [|lia]. cbn [bind]. f_equal. f_equal; lia.
Qed.

Lemma add_out q : dm = lpm -> quote_add_liquidity R SP sm (p_in_amount p) = Ok q -> U64 (p_in_amount p) -> accepts p ExactIn q ->
  exists t, add_liquidity_ix dp D SP p = Ok t /\
    out (late_refusal D SP w p q) (fun w' => liquidity_added D w w' sm lpm (p_source_token_account p) (p_destination_token_account p)
      (q_in_amount q) (q_out_amount q)) (run D E C w t).
Proof.
  intros Hdm H Hin (Ha1 & Ha2). unfold quote_add_liquidity in H. rewrite jp_ps, (is_epoch _ _ _ _ _ Hsync) in H. cbn [bind] in H.
  apply bind_ok in H as (pp & Hpp & H). unfold jp_pricing_prog in Hpp. apply of_option_ok in Hpp.
  destruct (pricing pp Hpp) as (HS & Hprog).
  apply bind_ok in H as (sup & Hsup & H). apply of_option_ok in Hsup. rewrite (is_supply _ _ _ _ _ Hsync ps Hp) in Hsup.
  fold lpm in Hsup. injection Hsup as <-.
  apply bind_ok in H as ((ils & ild) & Hi & H). apply guard_ok in H as (Hdis & H).
  apply bind_ok in H as (((ps1 & ls1) & b1) & A1 & H). 
  apply bind_ok in H as ((before & before_hi) & V1 & H). cbn [fst] in H.
  apply bind_ok in H as (after & P1 & H). apply guard_ok in H as (Hle & H).
  apply bind_ok in H as (lp & Hlp & H). apply bind_ok in H as ((fa & fp) & Hqf & H). injection H as <-.
  cbn [q_in_amount q_out_amount] in *. unfold calc_quote_fees in Hqf. apply guard_ok in Hqf as (_ & Hqf).
  apply guard_ok in Hqf as (Hbz & _).
  destruct (ready_entry ps sm ils ild Hp Hi) as (i & F1). pose proof (ef_look _ _ _ _ F1) as L1.
  destruct (one_sync _ _ _ _ _ _ _ F1 A1) as (w1 & S1 & T1 & M1 & O1 & G1 & P2 & Hb1 & Hbps & Hbi1 & l1 & Hl1 & Hn1).
  pose proof (sync_total _ _ _ _ _ _ _ F1 A1) as Utot.
  destruct (ask_l2s_ok _ _ _ _ w1 _ _ F1 Hin V1) as (I1 & Ubef & _). cbn [fst] in Ubef.
  assert (after = before) as -> by (unfold kf_quote_mint in P1; congruence).
  destruct lp_facts as (Olp & mi & Hmi & Hau & Hsu & Usu).
  assert (Ulp : U64 lp) by (eapply lp_u64; [| | |exact Hlp]; unfold U64 in *; lia).
  assert (Hlp0 : 0 <= lp) by apply Ulp.
  set (sgn := p_authority p). set (sa := p_source_token_account p). set (da := p_destination_token_account p).
  pose proof (kn_accounts_ok (ld_calc ild)) as K1. set (sacc := kn_ix_accounts dp (ld_calc ild)) in *.
  assert (K2 : suffix_ok 1 (kf_mint_accounts sm)) by (unfold suffix_ok, len; cbn; unfold U8_MAX; lia).
  set (pacc := kf_mint_accounts sm) in *.
  set (args := mkAddLiq (len sacc) i (p_in_amount p) (p_out_amount p)).
  set (metas := liq_metas w ps sgn sa da sm (fees_of D w sm) (reserves_of D w sm) ++
         (ro (sol_value_calculator ils) :: skipn 1 sacc) ++ (ro (pricing_program ps) :: skipn 1 pacc)).
  assert (Hb : add_liquidity_ix dp D SP p = Ok (built metas (AddLiquidity args))).
  { unfold add_liquidity_ix. fold sm dm. rewrite Hi. cbn [bind]. unfold jp_pricing_prog. rewrite Hpp. cbn [of_option bind].
    fold sgn sa da sacc pacc. unfold client_add_liquidity, client_liquidity.
    rewrite view_list, (view_pool _ Hp), (view_owner _ _ _ _ Hi F1).
    exact (liquidity_ok D w w (fresh_self ps Hp) sgn sa da sm sacc pacc (fun n i => AddLiquidity (mkAddLiq n i (p_in_amount p) (p_out_amount p)))
      i ils ils _ _ ps L1 Hp K1 K2). }
  exists (built metas (AddLiquidity args)). split; [exact Hb|].
  destruct (suffix_group 0 sacc (sol_value_calculator ils) K1) as (_ & Hlen1 & Hu81).
  assert (Hwf : ix_wfb (AddLiquidity args) = true).
  { unfold args. cbn [ix_wfb al_lst_value_calc_accs al_lst_index al_lst_amount al_min_lp_out].
    rewrite Hu81, (lu_range _ _ _ _ _ _ _ _ _ L1). rewrite !u64b_t; [reflexivity| |auto].
    unfold U64 in *. lia. }
  rewrite run_built by exact Hwf. unfold process. rewrite Hwf. cbn [guard].
  pose proof (verify_liq_built D w w ps _ Hp the_l _ _ _ _ _ _ sgn sa da _
    (ro (pricing_program ps) :: skipn 1 pacc) _ _ true L1
    Hlen1 (len_nonneg _) _ _ eq_refl eq_refl eq_refl) as Hver. fold metas in Hver.
  unfold process_add_liquidity. cbn [args al_lst_value_calc_accs al_lst_index al_lst_amount al_min_lp_out].
  assert (Hnz : p_in_amount p =? 0 = false).
  { apply Z.eqb_neq. intros Hz. rewrite Hz in V1. apply l2s_zero in V1; [|apply F1]. injection V1 as -> _. discriminate. }
  rewrite Hnz. cbn [negb guard]. rewrite Hver.
  rewrite act. cbn [bind]. unfold verify_lst_input_not_disabled. rewrite Hdis. cbn [guard bind].
  rewrite (kn_cpi_eq _ _ _ _ F1 : mkCpi (ro (sol_value_calculator ils)) (skipn 1 sacc) = _).
  unfold sync_liq, liq_accounts.
  cbn [la_signer la_lst_mint la_lst_acc la_lp_acc la_lp_token_mint la_protocol_fee_accumulator la_lst_token_program la_lp_token_program
    la_pool_state la_lst_state_list la_pool_reserves mk sg wr ro is_signer].
  rewrite S1. cbn [bind]. unfold pool_field. rewrite (pool_ok w1 ps1 P2). cbn [bind]. rewrite I1. cbn [bind].
  assert (invoke_price_lp_to_mint E w1 (mkCpi (ro (pricing_program ps)) (skipn 1 pacc)) sm (p_in_amount p) before = Ok before) as ->.
  { unfold invoke_price_lp_to_mint. cbn [cpi_prog cpi_accs mk ro]. rewrite Hprog.
    rewrite (proj2 (price_mint_iff R dp pw other pp w1 sm _ (p_in_amount p) before before) P1).
    apply decode_u64_ok; auto. }
  cbn [bind]. rewrite Z.leb_refl. cbn [guard].
  rewrite (no_add_fee (p_in_amount p) before (lp_protocol_fee_bps ps1) _) by (first [reflexivity|exact Hin|rewrite Hbps; apply pool_ranges]).
  cbn [bind]. unfold mint_supply. rewrite M1. fold lpm. rewrite Hmi. cbn [of_option bind]. rewrite <- Hsu, Hlp. cbn [bind].
  rewrite Hnz. cbn [orb]. apply out_guard.
  { intros Hz. right; right; right. split; [reflexivity|]. split; [apply negb_false_iff, Z.eqb_eq in Hz; exact Hz|]. exists ps. auto. }
  intros _. destruct (Z.leb_spec (p_out_amount p) lp); [|lia]. cbn [guard].
  set (q := mkQuote (p_in_amount p) lp sm fa fp).
  set (r := reserves_of D w sm). set (f := fees_of D w sm). set (x := p_in_amount p) in *.
  pose proof (ef_res _ _ _ _ F1) as Rr. pose proof (ef_fee _ _ _ _ F1) as Rf. fold r in Rr. fold f in Rf. fold r in G1.
  assert (HB : forall k, balance w1 k = balance w k) by (intros k; unfold balance; now rewrite T1).
  assert (Hsh : shape w w1) by (apply shape_same; auto).
  assert (Hu1 : tokens_u64 w1).
  { pose proof (base_u64 w (proj1 (reachable_inv D HD w Hreach))) as (A & B). split; rewrite ?T1, ?M1; auto. }
  assert (HU : funded w p q -> holds w sa sm (w_owner w sm) /\ owned w sa sgn /\ x <= balance w sa /\
            holds w da lpm SPL_TOKEN_ID /\ supply_sound w sm /\ supply_sound w lpm /\ supply w lpm + lp <= U64_MAX).
  { intros ((t & U1 & U2 & U3 & U4 & U5) & (t' & V2 & V3 & V4) & X1 & X2 & X3). fold sm sa in U1, U2, U4, X1. fold dm da in V2, V3, V4, X2.
    rewrite Hdm in V3, V4, X2. rewrite Olp in V4. specialize (X3 ps Hp Hdm). fold dm in X3. rewrite Hdm in X3. cbn [q q_out_amount] in X3.
    repeat split; auto.
    - exists t; auto.
    - exists t; auto.
    - unfold balance. rewrite U1. exact U5.
    - exists t'; auto. }
  assert (Hqx : q_in_amount q = x) by reflexivity. clearbody q.
  (* the user pays *)
  apply out_bind, out_intro.
  { intros e He. assert (e = TokenErr) as -> by (eapply transfer_err; eauto). left. split; [auto|].
    intros Fu. apply HU in Fu as (U1 & U2 & U3 & U4 & X1 & X2 & X3). pose proof (supply_max sm) as Ssm.
    eapply transfer_can; [| | | | | | |exact He].
    - apply F1.
    - eapply shape_holds; eauto.
    - eapply shape_holds; eauto.
    - eapply shape_mint; eauto. apply F1.
    - eapply shape_owned; eauto.
    - rewrite HB. auto.
    - intros N. rewrite HB. pose proof (sound_two _ _ _ _ _ _ X1 U1 Rr N). lia. }
  intros w2 TT1. pose proof (transfer_shape _ _ _ _ _ _ _ _ _ TT1) as Sh2.
  pose proof (transfer_good _ _ _ _ _ _ _ _ _ _ _ _ TT1 G1) as G2.
  pose proof (transfer_u64 _ _ _ _ _ _ _ _ _ (proj1 Hin) TT1 Hu1) as Hu2.
  pose proof (transfer_base _ _ _ _ _ _ _ _ _ (proj1 Hin) TT1 Hbi1) as Hbi2. pose proof (transfer_ctl _ _ _ _ _ _ _ _ _ TT1) as C2.
  apply transfer_balance in TT1 as (B2 & M2 & _). assert (Hsh2 : shape w w2) by (eapply shape_trans; eauto).
  (* no protocol fee *)
  apply out_bind, out_intro.
  { intros e He. assert (e = TokenErr) as -> by (eapply transfer_err; eauto). left. split; [auto|].
    intros Fu. apply HU in Fu as (U1 & U2 & U3 & U4 & X1 & X2 & X3).
    assert (Hbu : forall k, U64 (balance w2 k)).
    { intros k. unfold balance. destruct (w_tok w2 k) as [t|] eqn:Et; [apply (proj1 Hu2 _ _ Et)|unfold U64, U64_MAX; lia]. }
    eapply transfer_can; [| | | | | | |exact He].
    - apply F1.
    - eapply shape_holds; eauto.
    - eapply shape_holds; eauto.
    - eapply shape_mint; eauto. apply F1.
    - eapply shape_owned; eauto.
    - apply Hbu.
    - intros _. rewrite Z.add_0_r. apply Hbu. }
  intros w3 TT2. pose proof (transfer_shape _ _ _ _ _ _ _ _ _ TT2) as Sh3.
  pose proof (transfer_good _ _ _ _ _ _ _ _ _ _ _ _ TT2 G2) as G3.
  pose proof (transfer_u64 _ _ _ _ _ _ _ _ _ (Z.le_refl 0) TT2 Hu2) as Hu3.
  pose proof (transfer_base _ _ _ _ _ _ _ _ _ (Z.le_refl 0) TT2 Hbi2) as Hbi3. pose proof (transfer_ctl _ _ _ _ _ _ _ _ _ TT2) as C3.
  apply transfer_balance in TT2 as (B3 & M3 & _). assert (Hsh3 : shape w w3) by (eapply shape_trans; eauto).
  (* the user receives LP tokens *)
  apply out_bind, out_intro.
  { intros e He. assert (e = TokenErr) as -> by (eapply mint_to_err; eauto). left. split; [auto|].
    intros Fu. apply HU in Fu as (U1 & U2 & U3 & U4 & X1 & X2 & X3).
    assert (da <> sa /\ da <> r /\ da <> f) as (N1 & N2 & N3).
    { repeat split; (eapply holds_ne; [exact U4| |rewrite <- Hdm; apply not_eq_sym, Hne]); eauto. }
    assert (Hmi3 : w_mint w3 lpm = Some mi) by congruence.
    eapply mint_to_can; [| |exact Hmi3| |exact Hau| | |exact He].
    - reflexivity.
    - eapply shape_holds; eauto.
    - rewrite (proj1 Hsh3 : w_owner w3 = w_owner w). exact Olp.
    - rewrite B3, B2, HB, !on_other by auto. pose proof (sound_one _ _ _ _ X2 U4). lia.
    - unfold supply in *. rewrite Hmi3. rewrite Hmi in X3. exact X3. }
  intros w4 MM. pose proof (mint_good _ _ _ _ _ _ _ _ _ _ _ MM G3) as G4.
  pose proof (mint_to_base _ _ _ _ _ _ _ _ Hlp0 MM Hbi3) as Hbi4. pose proof (mint_to_ctl _ _ _ _ _ _ _ _ MM) as C4.
  assert (Nrd : r <> da).
  { pose proof (mint_to_inv _ _ _ _ _ _ _ _ MM) as (tm & td & HMM). decompose [and] HMM.
    pose proof (shape_holds _ _ _ _ _ Hsh3 Rr) as (_ & t0 & Ht0 & Hm0). intros Hrd. rewrite Hrd in Ht0. apply Hne. rewrite Hdm. congruence. }
  apply mint_to_balance in MM as (B4 & M4 & _).
  assert (Hps4 : the_pool w4 = Some ps1 /\ the_list w4 = Some l1).
  { destruct C2 as (? & ? & _), C3 as (? & ? & _), C4 as (? & ? & _). unfold the_pool, the_list in *. split; congruence. }
  destruct Hps4 as (Hps4 & Hl4). pose proof (ef_ne _ _ _ _ F1) as Nrf. fold r f in Nrf.
  assert (B4r : balance w r <= balance w4 r <= balance w r + x).
  { rewrite B4, B3, B2, HB, on_same, (on_zero r f), (on_zero r sa), (on_other r da) by auto.
    assert (0 <= on r sa x <= x) by (unfold on; destruct (r =? sa); unfold U64 in Hin; lia). lia. }
  assert (B0 : 0 <= balance w r).
  { destruct Rr as (_ & t & Et & _). unfold balance. rewrite Et. rewrite <- T1 in Et. apply (proj1 Hu1 _ _ Et). }
  pose proof (apply_figures _ _ _ _ _ _ _ A1) as (R1 & v1 & h1 & K1' & Hps1 & Hls1).
  apply out_bind.
  pose proof (sync_after w4 ps1 l1 ls1 sm i i ils ild Hbi4 Hps4 Hl4 Hn1) as SA. fold r in SA.
  assert (Hr4 : w_tok w4 r <> None) by (destruct G4 as (_ & _ & G4 & _); apply G4; left; reflexivity).
  specialize (SA Hr4 F1).
  destruct (sync_sol_value_unchecked E w4 POOL_STATE_ID LST_STATE_LIST_ID r (kn_cpi dp (ld_calc ild)) sm i) as [w5|e] eqn:SS; cbn [out].
  2:{ right; left. destruct SA as (Hee & SA). split; [exact Hee|]. exists ps, ils, ild. fold sm. split; [exact Hp|].
      split; [fold lpm; rewrite <- Hdm; exact Hne|]. split; [exact Hi|]. intros v hi Hv.
      rewrite (is_epoch _ _ _ _ _ Hsync) in Hv. fold r in Hv. rewrite Hqx in Hv.
      assert (B4r' : 0 <= balance w4 r <= balance w r + x) by lia.
      destruct (kn_shrink _ _ _ _ _ _ _ _ F1 B4r' Hv) as (v' & Hv' & Hle'). specialize (SA _ _ Hv').
      unfold rest_of_pool. fold dm lpm. rewrite Hdm, Z.eqb_refl.
      rewrite Hps1, Hls1 in SA. cbn [set_total set_sol_value total_sol_value sol_value] in SA. lia. }
  destruct SA as (v5 & h5 & Hk5 & Hps5 & _).
  pose proof (sync_good _ _ _ _ _ _ _ _ _ _ SS G4) as G5. apply sync_tok in SS as (ST & SM & _).
  apply out_bind. unfold try_pool_state. unfold the_pool in Hps5. rewrite Hps5. cbn [of_option bind out].
  assert (v1 <= v5).
  { assert (B4r' : 0 <= balance w r <= balance w4 r) by lia.
    destruct (kn_shrink _ _ _ _ _ _ _ _ F1 B4r' Hk5) as (v' & Hv' & Hle'). rewrite Hb1 in K1'. fold r in K1'. congruence. }
  cbn [set_total total_sol_value].
  match goal with |- context [guard ?b _ _] => assert (b = true) as -> end.
  { rewrite Hls1. cbn [set_sol_value sol_value]. apply Z.leb_le. lia. }
  cbn [guard out]. split.
  - intros M. unfold supply at 1. rewrite SM. fold (supply w4 M). rewrite M4. unfold supply. rewrite M3, M2, M1. reflexivity.
  - exists 0. split; [lia|]. intros k. assert (balance w5 k = balance w4 k) as -> by (unfold balance; now rewrite ST).
    rewrite B4, B3, B2, HB. fold r f. rewrite (on_zero k f), (on_zero k sa). replace (x - 0) with x by lia. lia.
Qed.

Lemma lp_value_zero a b r : calc_lp_tokens_sol_value a b 0 = Ok r -> r = 0.
Proof.
  unfold calc_lp_tokens_sol_value. destruct ((b =? 0) || (a =? 0)); [congruence|]. unfold floor_apply.
  rewrite Z.mul_0_l, Zdiv_0_l. destruct ((b =? 0) || (a =? 0)); cbn; congruence.
Qed.

Lemma remove_out q : sm = lpm -> quote_remove_liquidity R SP dm (p_in_amount p) = Ok q -> U64 (p_in_amount p) -> accepts p ExactIn q ->
  exists t, remove_liquidity_ix dp D SP p = Ok t /\
    out (late_refusal D SP w p q) (fun w' => liquidity_removed D w w' dm lpm (p_source_token_account p) (p_destination_token_account p)
      (q_in_amount q) (q_out_amount q)) (run D E C w t).
Proof.
  intros Hsm H Hin (Ha1 & Ha2). unfold quote_remove_liquidity in H. rewrite jp_ps, (is_epoch _ _ _ _ _ Hsync) in H. cbn [bind] in H.
  apply bind_ok in H as (pp & Hpp & H). unfold jp_pricing_prog in Hpp. apply of_option_ok in Hpp.
  destruct (pricing pp Hpp) as (HS & Hprog).
  apply bind_ok in H as (sup & Hsup & H). apply of_option_ok in Hsup. rewrite (is_supply _ _ _ _ _ Hsync ps Hp) in Hsup.
  fold lpm in Hsup. injection Hsup as <-.
  apply bind_ok in H as ((ols & old) & Ho & H).
  apply bind_ok in H as (((ps1 & ls1) & b1) & A1 & H). 
  apply bind_ok in H as (before & Hbef & H).
  apply bind_ok in H as (after & P1 & H). apply guard_ok in H as (Hle & H).
  apply bind_ok in H as ((tu & tu_hi) & V2 & H). cbn [fst] in H.
  apply bind_ok in H as (fee & Hfee & H). apply bind_ok in H as (tot & Htot & H). apply guard_ok in H as (Hliq & H).
  apply bind_ok in H as ((fa & fp) & Hqf & H). injection H as <-.
  cbn [q_in_amount q_out_amount] in *. unfold calc_quote_fees in Hqf. apply guard_ok in Hqf as (_ & Hqf).
  apply guard_ok in Hqf as (Hbz & _).
  destruct (ready_entry ps dm ols old Hp Ho) as (i & F1). pose proof (ef_look _ _ _ _ F1) as L1.
  destruct (one_sync _ _ _ _ _ _ _ F1 A1) as (w1 & S1 & T1 & M1 & O1 & G1 & P2 & Hb1 & Hbps & Hbi1 & l1 & Hl1 & Hn1).
  pose proof (sync_total _ _ _ _ _ _ _ F1 A1) as Utot.
  destruct lp_facts as (Olp & mi & Hmi & Hau & Hsu & Usu).
  assert (Ubef : U64 before) by (eapply lp_value_u64; [| | |exact Hbef]; unfold U64 in *; lia).
  assert (Uaft : U64 after) by (eapply redeem_u64; eauto).
  destruct (ask_s2l_ok _ _ _ _ w1 _ _ F1 Uaft V2) as (I1 & Utu & _). cbn [fst] in Utu.
  assert (Hfee0 : 0 <= fee).
  { eapply (fee_nonneg before after tu (lp_protocol_fee_bps ps1)); [| | |exact Hfee]; [|unfold U64 in *; lia|unfold U64 in *; lia].
    rewrite Hbps. apply pool_ranges. }
  apply checked_add_ok in Htot as (-> & Htm). apply Z.leb_le in Hliq. rewrite Hb1 in Hliq.
  set (sgn := p_authority p). set (sa := p_source_token_account p). set (da := p_destination_token_account p).
  pose proof (kn_accounts_ok (ld_calc old)) as K1. set (sacc := kn_ix_accounts dp (ld_calc old)) in *.
  assert (K2 : suffix_ok 1 (kf_redeem_accounts dp dm)) by (unfold suffix_ok, len; cbn; unfold U8_MAX; lia).
  set (pacc := kf_redeem_accounts dp dm) in *.
  set (args := mkRemLiq (len sacc) i (p_in_amount p) (p_out_amount p)).
  set (metas := liq_metas w ps sgn da sa dm (fees_of D w dm) (reserves_of D w dm) ++
         (ro (sol_value_calculator ols) :: skipn 1 sacc) ++ (ro (pricing_program ps) :: skipn 1 pacc)).
  assert (Hb : remove_liquidity_ix dp D SP p = Ok (built metas (RemoveLiquidity args))).
  { unfold remove_liquidity_ix. fold sm dm. rewrite Ho. cbn [bind]. unfold jp_pricing_prog. rewrite Hpp. cbn [of_option bind].
    fold sgn sa da sacc pacc. unfold client_remove_liquidity, client_liquidity.
    rewrite view_list, (view_pool _ Hp), (view_owner _ _ _ _ Ho F1).
    exact (liquidity_ok D w w (fresh_self ps Hp) sgn da sa dm sacc pacc (fun n i => RemoveLiquidity (mkRemLiq n i (p_in_amount p) (p_out_amount p)))
      i ols ols _ _ ps L1 Hp K1 K2). }
  exists (built metas (RemoveLiquidity args)). split; [exact Hb|].
  destruct (suffix_group 0 sacc (sol_value_calculator ols) K1) as (_ & Hlen1 & Hu81).
  assert (Hwf : ix_wfb (RemoveLiquidity args) = true).
  { unfold args. cbn [ix_wfb rl_lst_value_calc_accs rl_lst_index rl_lp_token_amount rl_min_lst_out].
    rewrite Hu81, (lu_range _ _ _ _ _ _ _ _ _ L1). rewrite !u64b_t; [reflexivity| |auto].
    unfold U64 in *. lia. }
  rewrite run_built by exact Hwf. unfold process. rewrite Hwf. cbn [guard].
  pose proof (verify_liq_built D w w ps _ Hp the_l _ _ _ _ _ _ sgn da sa _
    (ro (pricing_program ps) :: skipn 1 pacc) _ _ false L1
    Hlen1 (len_nonneg _) _ _ eq_refl eq_refl eq_refl) as Hver. fold metas in Hver.
  unfold process_remove_liquidity. cbn [args rl_lst_value_calc_accs rl_lst_index rl_lp_token_amount rl_min_lst_out].
  assert (Hnz : p_in_amount p =? 0 = false).
  { apply Z.eqb_neq. intros Hz. rewrite Hz in Hbef. apply lp_value_zero in Hbef. subst before. discriminate. }
  rewrite Hnz. cbn [negb guard]. rewrite Hver.
  rewrite act. cbn [bind].
  rewrite (kn_cpi_eq _ _ _ _ F1 : mkCpi (ro (sol_value_calculator ols)) (skipn 1 sacc) = _).
  unfold sync_liq, liq_accounts.
  cbn [la_signer la_lst_mint la_lst_acc la_lp_acc la_lp_token_mint la_protocol_fee_accumulator la_lst_token_program la_lp_token_program
    la_pool_state la_lst_state_list la_pool_reserves mk sg wr ro is_signer].
  rewrite S1. cbn [bind]. unfold pool_field. rewrite (pool_ok w1 ps1 P2). cbn [bind].
  unfold mint_supply. rewrite M1. fold lpm. rewrite Hmi. cbn [of_option bind]. rewrite <- Hsu, Hbef. cbn [bind].
  assert (invoke_price_lp_to_redeem E w1 (mkCpi (ro (pricing_program ps)) (skipn 1 pacc)) dm (p_in_amount p) before = Ok after) as ->.
  { unfold invoke_price_lp_to_redeem. cbn [cpi_prog cpi_accs mk ro]. rewrite Hprog.
    change (skipn 1 pacc) with [ro (ff_state (dp_flat dp))].
    rewrite (proj2 (price_redeem_iff R dp pw other pp _ HS w1 dm (p_in_amount p) before after) P1).
    apply decode_u64_ok; auto. }
  cbn [bind]. rewrite Hle. cbn [guard]. rewrite I1. cbn [bind]. rewrite Hfee. cbn [bind].
  apply out_guard.
  { intros Hz. right; right; right. split; [reflexivity|]. split; [apply negb_false_iff, Z.eqb_eq in Hz; exact Hz|]. exists ps. auto. }
  intros _. destruct (Z.leb_spec (p_out_amount p) tu); [|lia]. cbn [guard].
  set (q := mkQuote (p_in_amount p) tu dm fa fp).
  set (r := reserves_of D w dm) in *. set (f := fees_of D w dm). set (x := p_in_amount p) in *.
  pose proof (ef_res _ _ _ _ F1) as Rr. pose proof (ef_fee _ _ _ _ F1) as Rf. fold r in Rr. fold f in Rf.
  pose proof (ef_ne _ _ _ _ F1) as Nrf. fold r f in Nrf.
  assert (HB : forall k, balance w1 k = balance w k) by (intros k; unfold balance; now rewrite T1).
  assert (Hsh : shape w w1) by (apply shape_same; auto).
  assert (Hu1 : tokens_u64 w1).
  { pose proof (base_u64 w (proj1 (reachable_inv D HD w Hreach))) as (A & B). split; rewrite ?T1, ?M1; auto. }
  assert (HU : funded w p q -> holds w sa lpm SPL_TOKEN_ID /\ owned w sa sgn /\ x <= balance w sa /\
            holds w da dm (w_owner w dm) /\ supply_sound w lpm /\ supply_sound w dm).
  { intros ((t & U1 & U2 & U3 & U4 & U5) & (t' & W2 & W3 & W4) & X1 & X2 & _). fold sm sa in U1, U2, U4, X1. fold dm da in W2, W3, W4, X2.
    rewrite Hsm in U2, U4, X1. rewrite Olp in U4.
    repeat split; auto.
    - exists t; auto.
    - exists t; auto.
    - unfold balance. rewrite U1. exact U5.
    - exists t'; auto. }
  clearbody q. pose proof (supply_max dm) as Sdm.
  assert (Hne' : lpm <> dm) by (rewrite <- Hsm; exact Hne).
  (* the LP tokens are burned *)
  apply out_bind, out_intro.
  { intros e He. assert (e = TokenErr) as -> by (eapply burn_err; eauto). left. split; [auto|].
    intros Fu. apply HU in Fu as (U1 & U2 & U3 & U4 & X1 & X2).
    eapply burn_can; [| | | | | |exact He].
    - reflexivity.
    - eapply shape_holds; eauto.
    - eapply shape_mint; eauto. split; [congruence|exact Olp].
    - eapply shape_owned; eauto.
    - rewrite HB. auto.
    - unfold supply. rewrite M1. fold (supply w lpm). pose proof (sound_one _ _ _ _ X1 U1). lia. }
  intros w2 BB. pose proof (burn_shape _ _ _ _ _ _ _ _ BB) as Sh2.
  pose proof (burn_good _ _ _ _ _ _ _ _ _ _ _ BB G1) as G2.
  pose proof (burn_u64 _ _ _ _ _ _ _ _ (proj1 Hin) BB Hu1) as Hu2.
  pose proof (burn_base _ _ _ _ _ _ _ _ (proj1 Hin) BB Hbi1) as Hbi2. pose proof (burn_ctl _ _ _ _ _ _ _ _ BB) as C2.
  apply burn_balance in BB as (B2 & M2 & _). assert (Hsh2 : shape w w2) by (eapply shape_trans; eauto).
  (* the user receives *)
  apply out_bind, out_intro.
  { intros e He. assert (e = TokenErr) as -> by (eapply transfer_err; eauto). left. split; [auto|].
    intros Fu. apply HU in Fu as (U1 & U2 & U3 & U4 & X1 & X2).
    assert (sa <> r /\ sa <> da) as (N1 & N2) by (split; eapply holds_ne; eauto).
    eapply transfer_can; [| | | | | | |exact He].
    - apply F1.
    - eapply shape_holds; eauto.
    - eapply shape_holds; eauto.
    - eapply shape_mint; eauto. apply F1.
    - eapply shape_owned; eauto. apply F1.
    - rewrite B2, HB, on_other by auto. lia.
    - intros N. rewrite B2, HB, on_other by auto. pose proof (sound_two _ _ _ _ _ _ X2 U4 Rr (not_eq_sym N)). lia. }
  intros w3 TT1. pose proof (transfer_shape _ _ _ _ _ _ _ _ _ TT1) as Sh3.
  pose proof (transfer_good _ _ _ _ _ _ _ _ _ _ _ _ TT1 G2) as G3.
  pose proof (transfer_u64 _ _ _ _ _ _ _ _ _ (proj1 Utu) TT1 Hu2) as Hu3.
  pose proof (transfer_base _ _ _ _ _ _ _ _ _ (proj1 Utu) TT1 Hbi2) as Hbi3. pose proof (transfer_ctl _ _ _ _ _ _ _ _ _ TT1) as C3.
  apply transfer_balance in TT1 as (B3 & M3 & _). assert (Hsh3 : shape w w3) by (eapply shape_trans; eauto).
  (* the protocol fee *)
  apply out_bind, out_intro.
  { intros e He. assert (e = TokenErr) as -> by (eapply transfer_err; eauto). left. split; [auto|].
    intros Fu. apply HU in Fu as (U1 & U2 & U3 & U4 & X1 & X2).
    assert (sa <> r /\ sa <> f) as (N1 & N2) by (split; eapply holds_ne; eauto).
    pose proof (sound_two _ _ _ _ _ _ X2 Rf Rr (not_eq_sym Nrf)) as Sfr.
    assert (on r da tu >= 0) by (unfold on; destruct (r =? da); unfold U64 in *; lia).
    assert (on f da tu <= tu) by (unfold on; destruct (f =? da); unfold U64 in *; lia).
    eapply transfer_can; [| | | | | | |exact He].
    - apply F1.
    - eapply shape_holds; eauto.
    - eapply shape_holds; eauto.
    - eapply shape_mint; eauto. apply F1.
    - eapply shape_owned; eauto. apply F1.
    - rewrite B3, B2, HB, on_same, (on_other r sa) by auto. lia.
    - intros _. rewrite B3, B2, HB, (on_other f sa), (on_other f r) by auto. lia. }
  intros w4 TT2. 
  pose proof (transfer_good _ _ _ _ _ _ _ _ _ _ _ _ TT2 G3) as G4.
  pose proof (transfer_base _ _ _ _ _ _ _ _ _ Hfee0 TT2 Hbi3) as Hbi4. pose proof (transfer_ctl _ _ _ _ _ _ _ _ _ TT2) as C4.
  apply transfer_balance in TT2 as (B4 & M4 & _).
  apply out_intro.
  { intros e He. exfalso.
    assert (Hps4 : the_pool w4 = Some ps1 /\ the_list w4 = Some l1).
    { destruct C2 as (? & ? & _), C3 as (? & ? & _), C4 as (? & ? & _). unfold the_pool, the_list in *. split; congruence. }
    destruct Hps4 as (Hps4 & Hl4).
    pose proof (sync_after w4 ps1 l1 ls1 dm i i ols old Hbi4 Hps4 Hl4 Hn1) as SA. fold r in SA.
    assert (Hr4 : w_tok w4 r <> None) by (destruct G4 as (_ & _ & G4 & _); apply G4; left; reflexivity).
    specialize (SA Hr4 F1). rewrite He in SA. destruct SA as (_ & SA).
    assert (B4r : 0 <= balance w4 r <= balance w r).
    { split.
      - unfold balance. destruct (w_tok w4 r) as [t|] eqn:Et; [apply (proj1 (base_u64 _ Hbi4) _ _ Et)|lia].
      - rewrite B4, B3, B2, HB, !on_same, (on_other r f) by auto.
        assert (on r da tu <= tu) by (unfold on; destruct (r =? da); unfold U64 in Utu; lia).
        assert (0 <= on r sa x) by (unfold on; destruct (r =? sa); unfold U64 in Hin; lia). lia. }
    pose proof (apply_figures _ _ _ _ _ _ _ A1) as (R1 & v1 & h1 & K1' & Hps1 & Hls1). rewrite Hb1 in K1'. 
    destruct (kn_shrink _ _ _ _ _ _ _ _ F1 B4r K1') as (v' & Hv' & Hle'). specialize (SA _ _ Hv').
    rewrite Hls1 in SA. cbn [set_sol_value sol_value] in SA. unfold U64 in Utot. lia. }
  intros w5 SS. apply sync_tok in SS as (ST & SM & _). split.
  - intros M. assert (supply w5 M = supply w2 M) as -> by (unfold supply; rewrite SM, M4, M3; reflexivity).
    rewrite M2. unfold supply. rewrite M1. reflexivity.
  - exists fee. split; [auto|]. intros k. assert (balance w5 k = balance w4 k) as -> by (unfold balance; now rewrite ST).
    rewrite B4, B3, B2, HB. fold r f. rewrite on_add. lia.
Qed.
End Swap.
End Pool.
