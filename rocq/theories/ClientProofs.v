(** Lemmas for client-built instructions (C34). *)
From Coq Require Import ZArith List Bool Lia.
From Verif Require Import Base Ratio Calc State Controller Inversion ProcInv Spec CalcProofs InvProofs
  TokProofs AccessProofs ShapeProofs Serde SerdeProofs Client ClientSpec.
Import ListNotations.
Open Scope Z_scope.

(* ------------------------------------------------------------------ *)
(** * Lemmas *)

Lemma acc_bind {A B} (m : res A) (f : A -> res B) :
  accepted m -> (forall a, m = Ok a -> accepted (f a)) -> accepted (bind m f).
Proof. destruct m; cbn; auto. Qed.
Lemma acc_guard {A} b e (k : res A) :
  (b = false -> account_fault e = false) -> (b = true -> accepted k) -> accepted (guard b e k).
Proof. destruct b; cbn; auto. Qed.
Lemma acc_opt {A} e (o : option A) : o <> None -> accepted (of_option e o).
Proof. destruct o; cbn; tauto. Qed.
Lemma acc_opt' {A} e (o : option A) : account_fault e = false -> accepted (of_option e o).
Proof. destruct o; cbn; tauto. Qed.

Ltac accr := repeat first
  [ exact I | reflexivity
  | apply acc_guard; [intros _; reflexivity|intros _]
  | apply acc_opt'; reflexivity
  | apply acc_bind; [|intros ? _] ].

Lemma acc_checked_add a b : accepted (checked_add RatioMathErr a b).
Proof. unfold checked_add. destruct (_ <=? _); cbn; auto. Qed.
Lemma acc_checked_add' a b : accepted (checked_add (Ctl MathError) a b).
Proof. unfold checked_add. destruct (_ <=? _); cbn; auto. Qed.
Lemma acc_checked_sub a b : accepted (checked_sub RatioMathErr a b).
Proof. unfold checked_sub. destruct (_ <=? _); cbn; auto. Qed.
Lemma acc_floor n d x : accepted (floor_apply n d x).
Proof. unfold floor_apply. destruct (_ || _); cbn; auto. destruct (_ <=? _); cbn; auto. Qed.
Lemma acc_fee b x : accepted (ceil_bps_fee b x).
Proof. unfold ceil_bps_fee, ceil_fee_charged. destruct (_ <? _); cbn; auto. destruct (_ || _); cbn; auto. Qed.
Lemma acc_range r : accepted (decode_range r).
Proof. unfold decode_range. destruct r as [(a & b)|e]; cbn; accr. Qed.
Lemma acc_u64 r : accepted (decode_u64 r).
Proof. unfold decode_u64. destruct r as [a|e]; cbn; accr. Qed.
Lemma acc_transfer w p f t m a s x : accepted (transfer_checked w p f t m a s x).
Proof. unfold transfer_checked. accr. destruct (_ =? _); accr. Qed.
Lemma acc_mint w p m t a s x : accepted (mint_to w p m t a s x).
Proof. unfold mint_to. accr. Qed.
Lemma acc_burn w p m t a s x : accepted (burn w p m t a s x).
Proof. unfold burn. accr. Qed.
Lemma acc_close w p m a s : accepted (close_token_account w p m a s).
Proof. unfold close_token_account. accr. Qed.
Lemma acc_swap_fee a b c d : accepted (calc_swap_protocol_fees a b c d).
Proof. unfold calc_swap_protocol_fees. cbn zeta. apply acc_bind; [apply acc_fee|intros ? _; apply acc_floor]. Qed.
Lemma acc_add_fee a b c d : accepted (calc_add_liquidity_protocol_fees a b c d).
Proof.
  unfold calc_add_liquidity_protocol_fees. cbn zeta. apply acc_bind; [apply acc_fee|intros ? _].
  apply acc_bind; [apply acc_floor|intros ? _]. apply acc_bind; [apply acc_checked_sub|intros ? _]. exact I.
Qed.
Lemma acc_rem_fee a b c d : accepted (calc_remove_liquidity_protocol_fees a b c d).
Proof. unfold calc_remove_liquidity_protocol_fees. cbn zeta. apply acc_bind; [apply acc_fee|intros ? _; apply acc_floor]. Qed.
Lemma acc_lp_mint a b c : accepted (calc_lp_tokens_to_mint a b c).
Proof.
  unfold calc_lp_tokens_to_mint. destruct (_ =? _); [apply acc_checked_add|]. destruct (_ =? _); [exact I|apply acc_floor].
Qed.
Lemma acc_lp_value a b c : accepted (calc_lp_tokens_sol_value a b c).
Proof. unfold calc_lp_tokens_sol_value. destruct (_ || _); [exact I|apply acc_floor]. Qed.
Lemma acc_active ps : accepted (verify_not_rebalancing_and_not_disabled ps).
Proof. unfold verify_not_rebalancing_and_not_disabled. accr. Qed.
Lemma acc_input ls : accepted (verify_lst_input_not_disabled ls).
Proof. unfold verify_lst_input_not_disabled. accr. Qed.

(** Worlds in which the syncs of the positions [is], the balance reads of [rs] and the supply reads of
    [ms] find what they look for. *)
Definition good (w : World) (rs : list key) (is : list Z) (ms : list key) : Prop :=
  w_pool w POOL_STATE_ID <> None /\
  (exists l, w_list w LST_STATE_LIST_ID = Some l /\ forall i, In i is -> nth_lst l i <> None) /\
  (forall r, In r rs -> w_tok w r <> None) /\ (forall m, In m ms -> w_mint w m <> None).

Lemma nth_lst_replace l n ls i : nth_lst l i <> None -> nth_lst (replace_nth l n ls) i <> None.
Proof. unfold nth_lst. rewrite !nth_error_Some, replace_nth_length. auto. Qed.

Lemma sync_good E w r c m i w' rs is ms :
  sync_sol_value_unchecked E w POOL_STATE_ID LST_STATE_LIST_ID r c m i = Ok w' ->
  good w rs is ms -> good w' rs is ms.
Proof.
  unfold sync_sol_value_unchecked. intros H (Gp & (l & Hl & Gi) & Gr & Gm).
  apply bind_ok in H as (b & _ & H). apply bind_ok in H as ((lo & hi) & _ & H).
  apply bind_ok in H as (ps & _ & H). apply bind_ok in H as (l' & Hl' & H).
  apply bind_ok in H as (ls & Hn & H). apply bind_ok in H as ((ps' & ls') & _ & [= <-]).
  unfold try_lst_state_list in Hl'. apply of_option_ok in Hl'.
  unfold good, put_list, put_pool; cbn [w_pool w_list w_tok w_mint].
  rewrite !upd_same. split; [discriminate|]. split.
  - eexists. split; [reflexivity|]. intros j Hj. apply nth_lst_replace. assert (l' = l) as -> by congruence. auto.
  - auto.
Qed.
Lemma sync_acc E w r c m i rs is ms : good w rs is ms -> In r rs -> In i is ->
  accepted (sync_sol_value_unchecked E w POOL_STATE_ID LST_STATE_LIST_ID r c m i).
Proof.
  intros (Gp & (l & Hl & Gi) & Gr & Gm) Hr Hi. unfold sync_sol_value_unchecked, token_account_balance.
  apply acc_bind. { apply acc_bind; [apply acc_opt; auto|intros ? _; exact I]. }
  intros b _. apply acc_bind; [apply acc_range|]. intros (lo & hi) _.
  apply acc_bind; [apply acc_opt; auto|]. intros ps _.
  unfold try_lst_state_list. rewrite Hl. cbn [of_option bind].
  apply acc_bind; [apply acc_opt; auto|]. intros ls _.
  unfold sync_sol_value_with_retval. unfold checked_sub, checked_add. destruct (_ <=? _); cbn; auto.
  destruct (_ <=? _); cbn; auto.
Qed.
Lemma transfer_good w p f t m a s x w' rs is ms :
  transfer_checked w p f t m a s x = Ok w' -> good w rs is ms -> good w' rs is ms.
Proof.
  unfold transfer_checked. intros H (Gp & Gl & Gr & Gm).
  apply guard_ok in H as (_ & H). apply bind_ok in H as (tf & Hf & H). apply bind_ok in H as (tt & Ht & H).
  apply bind_ok in H as (mm & _ & H). apply guard_ok in H as (_ & H). apply guard_ok in H as (_ & H).
  apply guard_ok in H as (_ & H). apply guard_ok in H as (_ & H).
  destruct (_ =? _).
  - injection H as <-. unfold good; auto.
  - apply guard_ok in H as (_ & [= <-]). unfold good, put_tok; cbn [w_pool w_list w_tok w_mint].
    split; auto. split; auto. split; auto. intros r Hr. unfold upd.
    destruct (_ =? _); [discriminate|]. destruct (_ =? _); [discriminate|]. auto.
Qed.
Lemma mint_good w p m t a s x w' rs is ms :
  mint_to w p m t a s x = Ok w' -> good w rs is ms -> good w' rs is ms.
Proof.
  unfold mint_to. intros H (Gp & Gl & Gr & Gm).
  apply guard_ok in H as (_ & H). apply bind_ok in H as (tf & Hf & H). apply bind_ok in H as (tt & Ht & H).
  apply guard_ok in H as (_ & H). apply guard_ok in H as (_ & H).
  apply guard_ok in H as (_ & H). apply guard_ok in H as (_ & [= <-]).
  unfold good, put_tok, put_mint; cbn [w_pool w_list w_tok w_mint].
  split; auto. split; auto. split; intros r Hr; unfold upd; destruct (_ =? _); auto; discriminate.
Qed.
Lemma burn_good w p m t a s x w' rs is ms :
  burn w p m t a s x = Ok w' -> good w rs is ms -> good w' rs is ms.
Proof.
  unfold burn. intros H (Gp & Gl & Gr & Gm).
  apply guard_ok in H as (_ & H). apply bind_ok in H as (tf & Hf & H). apply bind_ok in H as (tt & Ht & H).
  apply guard_ok in H as (_ & H). apply guard_ok in H as (_ & H).
  apply guard_ok in H as (_ & H). apply guard_ok in H as (_ & [= <-]).
  unfold good, put_tok, put_mint; cbn [w_pool w_list w_tok w_mint].
  split; auto. split; auto. split; intros r Hr; unfold upd; destruct (_ =? _); auto; discriminate.
Qed.
Lemma acc_field {A} w (f : PoolState -> A) rs is ms : good w rs is ms -> accepted (pool_field w POOL_STATE_ID f).
Proof. intros (Gp & _). unfold pool_field. apply acc_bind; [apply acc_opt; auto|intros ? _; exact I]. Qed.
Lemma acc_balance w r rs is ms : good w rs is ms -> In r rs -> accepted (token_account_balance w r).
Proof. intros (_ & _ & Gr & _) Hr. unfold token_account_balance. apply acc_bind; [apply acc_opt; auto|intros ? _; exact I]. Qed.
Lemma acc_supply w m rs is ms : good w rs is ms -> In m ms -> accepted (mint_supply w m).
Proof. intros (_ & _ & _ & Gm) Hr. unfold mint_supply. apply acc_bind; [apply acc_opt; auto|intros ? _; exact I]. Qed.

(* ------------------------------------------------------------------ *)
(** Finding an entry *)
Lemma find_lst_spec k m l i ls : find_lst_from k m l = Ok (i, ls) ->
  k <= i < k + Z.of_nat (length l) /\ nth_error l (Z.to_nat (i - k)) = Some ls /\ ls_mint ls = m.
Proof.
  revert k. induction l as [|x t IH]; cbn [find_lst_from]; intros k H; [discriminate|].
  destruct (Z.eqb_spec (ls_mint x) m).
  - injection H as <- <-. rewrite Z.sub_diag. cbn [length Z.to_nat nth_error].
    split; [lia|]. auto.
  - apply IH in H as (Hi & Hn & Hm). split; [cbn [length]; lia|]. split; auto.
    replace (Z.to_nat (i - k)) with (S (Z.to_nat (i - (k + 1)))) by lia. exact Hn.
Qed.
Lemma find_lst_complete k m l : In m (map ls_mint l) -> exists i ls, find_lst_from k m l = Ok (i, ls).
Proof.
  revert k. induction l as [|x t IH]; cbn [find_lst_from map In]; intros k H; [tauto|].
  destruct (Z.eqb_spec (ls_mint x) m); [eauto|]. destruct H; [congruence|]. auto.
Qed.
Lemma map_entry_nth lv l n ls : map entry_id lv = map entry_id l -> nth_error lv n = Some ls ->
  exists ls', nth_error l n = Some ls' /\ entry_id ls' = entry_id ls.
Proof.
  intros He Hn. pose proof (map_nth_error entry_id _ _ Hn) as H. rewrite He in H.
  destruct (nth_error l n) as [ls'|] eqn:E.
  - exists ls'. split; auto. pose proof (map_nth_error entry_id _ _ E). congruence.
  - apply nth_error_None in E. assert (n < length (map entry_id l))%nat by (apply nth_error_Some; congruence).
    rewrite map_length in *. lia.
Qed.

(** Everything the client and the program look up for a listed mint. *)
Record looked_up (D : Derive) (V w : World) (m : key) (i : Z) (lsv ls : LstState) (r f : key) : Prop := {
  lu_find : forall lv, the_list V = Some lv -> try_find_lst_mint_on_list m lv = Ok (i, lsv);
  lu_range : u32b i = true;
  lu_nth : forall l, the_list w = Some l -> nth_lst l i = Some ls;
  lu_mint : ls_mint ls = m;
  lu_mintv : ls_mint lsv = m;
  lu_calc : sol_value_calculator lsv = sol_value_calculator ls;
  lu_resv : create_pool_reserves_address D lsv (w_owner V m) = Ok r;
  lu_res : create_pool_reserves_address D ls (w_owner w m) = Ok r;
  lu_pfav : create_protocol_fee_accumulator_address D lsv (w_owner V m) = Ok f;
  lu_pfa : create_protocol_fee_accumulator_address D ls (w_owner w m) = Ok f;
  lu_own : w_owner V m = w_owner w m;
  lu_tok : w_tok w r <> None;
  lu_tokf : w_tok w f <> None
}.
Lemma look_up D (HD : derive_ok D) V w m : reachable D w -> fresh V w -> listed w m ->
  exists i lsv ls r f, looked_up D V w m i lsv ls r f.
Proof.
  intros Hr (_ & (lv & l & Hv & Hl & He & Hlen) & _ & Ho) (l0 & ls0 & Hl0 & Hin & Hm).
  assert (l0 = l) as -> by congruence. clear Hl0.
  assert (Hmv : map ls_mint lv = map ls_mint l).
  { pose proof (f_equal (map (fun x => fst (fst (fst x)))) He) as H. rewrite !map_map in H. exact H. }
  destruct (find_lst_complete 0 m lv) as (i & lsv & Hf).
  { rewrite Hmv, in_map_iff. eauto. }
  pose proof (find_lst_spec _ _ _ _ _ Hf) as (Hi & Hn & Hmm).
  rewrite Z.sub_0_r in Hn. destruct (map_entry_nth _ _ _ _ He Hn) as (ls & Hn' & Hid).
  assert (Hll : length lv = length l) by (rewrite <- (map_length ls_mint lv), Hmv, map_length; auto).
  unfold entry_id in Hid. injection Hid as I1 I2 I3 I4.
  pose proof (reachable_ata D HD w Hr) as (_ & Hat & _). specialize (Hat l Hl).
  rewrite Forall_forall in Hat. pose proof (Hat ls (nth_error_In _ _ Hn')) as (_ & Hmi & r & f & F1 & F2 & R & F).
  assert (Hms : ls_mint ls = m) by congruence. rewrite Hms in *.
  destruct HD as (Hfc & _).
  pose proof (Hfc POOL_STATE_ID (w_owner w m) m) as C1. rewrite F1 in C1.
  pose proof (Hfc PROTOCOL_FEE_ID (w_owner w m) m) as C2. rewrite F2 in C2. cbn [fst snd] in C1, C2.
  exists i, lsv, ls, r, f. assert (Hlis : listed w m) by (exists l, ls; eauto using nth_error_In). specialize (Ho m Hlis). constructor; auto.
  - intros lv' Hlv'. assert (lv' = lv) as -> by congruence. exact Hf.
  - unfold u32b. rewrite andb_true_iff, !Z.leb_le. lia.
  - intros l' Hl'. assert (l' = l) as -> by congruence. exact Hn'.
  - unfold create_pool_reserves_address. rewrite Ho, <- I3, Hmm, C1. reflexivity.
  - unfold create_pool_reserves_address. rewrite Hms, C1. reflexivity.
  - unfold create_protocol_fee_accumulator_address. rewrite Ho, <- I4, Hmm, C2. reflexivity.
  - unfold create_protocol_fee_accumulator_address. rewrite Hms, C2. reflexivity.
Qed.

Lemma run_built D E C w metas ix : ix_wfb ix = true ->
  run D E C w (built metas ix) = process D E C w metas ix.
Proof.
  intros H. unfold run, built, process_instruction; cbn [ti_prog ti_accs ti_data]. rewrite Z.eqb_refl.
  cbn [guard]. pose proof (dec_enc ix [] H) as Hd. rewrite app_nil_r in Hd. rewrite Hd. reflexivity.
Qed.
Lemma decode_built metas ix : ix_wfb ix = true -> dec_ix (ti_data (built metas ix)) = Some ix.
Proof. intros H. pose proof (dec_enc ix [] H) as Hd. rewrite app_nil_r in Hd. exact Hd. Qed.

Lemma suffix_group n accs p : suffix_ok (S n) accs ->
  extend_with_calc accs p = Ok (ro p :: skipn 1 accs, len accs) /\
  length (ro p :: skipn 1 accs) = Z.to_nat (len accs) /\ u8b (len accs) = true.
Proof.
  intros (H1 & H2). unfold extend_with_calc, len in *. destruct (Z.leb_spec (Z.of_nat (length accs)) U8_MAX); [|lia].
  cbn [guard]. split; [reflexivity|]. destruct accs; cbn [length] in *; [lia|]. cbn [skipn].
  split; [cbn [length]; lia|]. unfold u8b. rewrite andb_true_iff, !Z.leb_le. lia.
Qed.
Lemma slice_to_app (a b : list Meta) n : length a = Z.to_nat n -> 0 <= n -> slice_to (a ++ b) n = Ok a.
Proof.
  intros H Hn. unfold slice_to. rewrite app_length, H. destruct (Z.leb_spec n (Z.of_nat (Z.to_nat n + length b))); [|lia].
  rewrite <- H, firstn_app, Nat.sub_diag, firstn_all, firstn_O, app_nil_r. reflexivity.
Qed.
Lemma slice_from_app (a b : list Meta) n : length a = Z.to_nat n -> 0 <= n -> slice_from (a ++ b) n = Ok b.
Proof.
  intros H Hn. unfold slice_from. rewrite app_length, H. destruct (Z.leb_spec n (Z.of_nat (Z.to_nat n + length b))); [|lia].
  rewrite <- H, skipn_app, Nat.sub_diag, skipn_all, skipn_O. reflexivity.
Qed.
Lemma calc_cpi w l i ls p t : the_list w = Some l -> nth_lst l i = Some ls -> p = sol_value_calculator ls ->
  verify_lst_sol_val_calc_cpi w LST_STATE_LIST_ID (ro p :: t) i = Ok (mkCpi (ro p) t).
Proof.
  intros Hl Hn ->. unfold verify_lst_sol_val_calc_cpi, try_lst_state_list, the_list in *. rewrite Hl.
  cbn [cpi_from_suffix bind of_option]. rewrite Hn. cbn [bind of_option cpi_prog mk ro]. rewrite Z.eqb_refl. reflexivity.
Qed.
Lemma price_cpi w ps p t : the_pool w = Some ps -> p = pricing_program ps ->
  verify_pricing_cpi w POOL_STATE_ID (ro p :: t) = Ok (mkCpi (ro p) t).
Proof.
  intros Hp ->. unfold verify_pricing_cpi, try_pool_state, the_pool in *. rewrite Hp.
  cbn [cpi_from_suffix bind of_option cpi_prog mk ro]. rewrite Z.eqb_refl. reflexivity.
Qed.
Lemma match_on l i ls m : nth_lst l i = Some ls -> ls_mint ls = m -> try_match_lst_mint_on_list m l i = Ok ls.
Proof.
  intros Hn Hm. unfold try_match_lst_mint_on_list. rewrite Hn. cbn [of_option bind]. rewrite Hm, Z.eqb_refl. reflexivity.
Qed.

(* ------------------------------------------------------------------ *)
(** * What the program's checks make of client-built accounts *)
Lemma suffix_group2 accs p : (2 <= length accs)%nat -> len accs - 1 <= U8_MAX ->
  extend_with_price_swap accs p = Ok (ro p :: skipn 2 accs).
Proof.
  intros H1 H2. unfold extend_with_price_swap, len in *.
  destruct (Z.leb_spec 1 (Z.of_nat (length accs))); [|lia].
  destruct (Z.leb_spec (Z.of_nat (length accs) - 1) U8_MAX); [|lia]. reflexivity.
Qed.

Ltac privs := match goal with |- context [privileges_ok ?a ?b] => change (privileges_ok a b) with true end;
  cbn [guard].

Section Verify.
Context (D : Derive) (V w : World) (ps : PoolState) (l : list LstState).
Hypothesis Hp : the_pool w = Some ps.
Hypothesis Hl : the_list w = Some l.

Lemma list_ok : try_lst_state_list w LST_STATE_LIST_ID = Ok l.
Proof. unfold try_lst_state_list, the_list in *. rewrite Hl. reflexivity. Qed.
Lemma pool_ok : try_pool_state w POOL_STATE_ID = Ok ps.
Proof. unfold try_pool_state, the_pool in *. rewrite Hp. reflexivity. Qed.

Definition swap_accounts (signer sa da sm dm f r r' : key) : SwapAccounts :=
  mkSwapAccounts (sg signer) (ro sm) (ro dm) (wr sa) (wr da) (wr f) (ro (w_owner w sm)) (ro (w_owner w dm))
    (wr POOL_STATE_ID) (wr LST_STATE_LIST_ID) (wr r) (wr r').
Definition swap_metas (signer sa da sm dm f r r' : key) : list Meta :=
  [sg signer; ro sm; ro dm; wr sa; wr da; wr f; ro (w_owner w sm); ro (w_owner w dm);
   wr POOL_STATE_ID; wr LST_STATE_LIST_ID; wr r; wr r'].

Lemma verify_swap_built sm i lsv ls r f dm j ldv ld r' f' signer sa da gs gd gp ns nd pp :
  looked_up D V w sm i lsv ls r f -> looked_up D V w dm j ldv ld r' f' ->
  length gs = Z.to_nat ns -> 0 <= ns -> length gd = Z.to_nat nd -> 0 <= nd ->
  forall ts td tp, gs = ro (sol_value_calculator ls) :: ts -> gd = ro (sol_value_calculator ld) :: td ->
  gp = ro pp :: tp -> pp = pricing_program ps ->
  verify_swap D w (swap_metas signer sa da sm dm f' r r' ++ (gs ++ gd) ++ gp) ns nd i j =
  (_ <- verify_swap_not_same_lst sm dm ;; _ <- verify_not_rebalancing_and_not_disabled ps ;;
   _ <- verify_lst_input_not_disabled ls ;;
   Ok (swap_accounts signer sa da sm dm f' r r',
       (mkCpi (ro (sol_value_calculator ls)) ts, mkCpi (ro (sol_value_calculator ld)) td, mkCpi (ro pp) tp))).
Proof.
  intros L1 L2 Hns Hns0 Hnd Hnd0 ts td tp Es Ed Ep Epp.
  unfold swap_metas. cbn [app]. unfold verify_swap. cbn [mk sg ro wr].
  unfold resolve_swap, check_list_key. rewrite Z.eqb_refl. cbn [guard]. rewrite list_ok. cbn [bind].
  rewrite (match_on _ _ _ _ (lu_nth _ _ _ _ _ _ _ _ _ L1 l Hl) (lu_mint _ _ _ _ _ _ _ _ _ L1)). cbn [bind].
  rewrite (lu_res _ _ _ _ _ _ _ _ _ L1). cbn [bind].
  rewrite (match_on _ _ _ _ (lu_nth _ _ _ _ _ _ _ _ _ L2 l Hl) (lu_mint _ _ _ _ _ _ _ _ _ L2)). cbn [bind].
  rewrite (lu_res _ _ _ _ _ _ _ _ _ L2), (lu_pfa _ _ _ _ _ _ _ _ _ L2). cbn [bind].
  unfold verify_keys_privs. cbn [keys_match mk]. rewrite !Z.eqb_refl. cbn [andb guard].
  privs.
  destruct (verify_swap_not_same_lst sm dm); [cbn [bind]|reflexivity].
  try rewrite pool_ok; cbn [bind].
  destruct (verify_not_rebalancing_and_not_disabled ps); [cbn [bind]|reflexivity].
  try rewrite list_ok; cbn [bind]. rewrite (lu_nth _ _ _ _ _ _ _ _ _ L1 l Hl). cbn [of_option bind].
  destruct (verify_lst_input_not_disabled ls); [cbn [bind]|reflexivity].
  unfold verify_swap_cpis. cbv zeta.
  rewrite slice_to_app; [|rewrite app_length; lia|lia]. cbn [bind].
  unfold verify_src_dst_lst_sol_val_calc_cpis. rewrite slice_to_app; auto. cbn [bind]. subst gs gd gp.
  rewrite (calc_cpi w l i ls _ ts Hl (lu_nth _ _ _ _ _ _ _ _ _ L1 l Hl) eq_refl). cbn [bind].
  rewrite slice_from_app; auto. cbn [bind].
  rewrite (calc_cpi w l j ld _ td Hl (lu_nth _ _ _ _ _ _ _ _ _ L2 l Hl) eq_refl). cbn [bind].
  rewrite slice_from_app; [|rewrite app_length; lia|lia]. cbn [bind].
  rewrite (price_cpi w ps pp tp Hp Epp). reflexivity.
Qed.

Definition liq_accounts (signer la lp m f r : key) : LiqAccounts :=
  mkLiqAccounts (sg signer) (ro m) (wr la) (wr lp) (wr (lp_token_mint ps)) (wr f) (ro (w_owner w m))
    (ro SPL_TOKEN_ID) (wr POOL_STATE_ID) (wr LST_STATE_LIST_ID) (wr r).
Definition liq_metas (signer la lp m f r : key) : list Meta :=
  [sg signer; ro m; wr la; wr lp; wr (lp_token_mint ps); wr f; ro (w_owner w m); ro SPL_TOKEN_ID;
   wr POOL_STATE_ID; wr LST_STATE_LIST_ID; wr r].

Lemma verify_liq_built m i lsv ls r f signer la lp g gp n pp (inp : bool) :
  looked_up D V w m i lsv ls r f -> length g = Z.to_nat n -> 0 <= n ->
  forall t tp, g = ro (sol_value_calculator ls) :: t -> gp = ro pp :: tp -> pp = pricing_program ps ->
  verify_liquidity D w (liq_metas signer la lp m f r ++ g ++ gp) inp n i =
  (_ <- verify_not_rebalancing_and_not_disabled ps ;;
   _ <- (if inp then verify_lst_input_not_disabled ls else Ok tt) ;;
   Ok (liq_accounts signer la lp m f r, (mkCpi (ro (sol_value_calculator ls)) t, mkCpi (ro pp) tp))).
Proof.
  intros L1 Hn Hn0 t tp E Ep Epp.
  unfold liq_metas. cbn [app]. unfold verify_liquidity. cbn [mk sg ro wr].
  unfold resolve_liquidity, check_list_key, check_pool_key. rewrite !Z.eqb_refl. cbn [guard]. rewrite list_ok. cbn [bind].
  rewrite (match_on _ _ _ _ (lu_nth _ _ _ _ _ _ _ _ _ L1 l Hl) (lu_mint _ _ _ _ _ _ _ _ _ L1)). cbn [bind].
  rewrite (lu_res _ _ _ _ _ _ _ _ _ L1), (lu_pfa _ _ _ _ _ _ _ _ _ L1), pool_ok. cbn [bind].
  unfold verify_keys_privs. cbn [keys_match mk]. rewrite !Z.eqb_refl. cbn [andb guard].
  privs.
  destruct (verify_not_rebalancing_and_not_disabled ps); [cbn [bind]|reflexivity].
  assert ((if inp then (ls0 <- of_option Panic (nth_lst l i) ;;
             verify_lst_input_not_disabled ls0) else Ok tt) =
          (if inp then verify_lst_input_not_disabled ls else Ok tt)) as ->.
  { destruct inp; auto. rewrite (lu_nth _ _ _ _ _ _ _ _ _ L1 l Hl). reflexivity. }
  destruct (if inp then verify_lst_input_not_disabled ls else Ok tt); [cbn [bind]|reflexivity].
  unfold verify_lp_cpis. rewrite slice_to_app; auto. cbn [bind]. subst g gp.
  rewrite (calc_cpi w l i ls _ t Hl (lu_nth _ _ _ _ _ _ _ _ _ L1 l Hl) eq_refl). cbn [bind].
  rewrite slice_from_app; auto. cbn [bind]. rewrite (price_cpi w ps pp tp Hp Epp). reflexivity.
Qed.
End Verify.

(* ------------------------------------------------------------------ *)
(** * No account fault once the accounts are verified *)
Lemma acc_not_same a b : accepted (verify_swap_not_same_lst a b).
Proof. unfold verify_swap_not_same_lst. accr. Qed.

Lemma settle_acc E w A c1 c2 i j st a b p ms :
  mk (sa_pool_state A) = POOL_STATE_ID -> mk (sa_lst_state_list A) = LST_STATE_LIST_ID ->
  good w [mk (sa_src_pool_reserves A); mk (sa_dst_pool_reserves A)] [i; j] ms ->
  accepted (swap_settle E w A c1 c2 i j st a b p).
Proof.
  intros Ep El G. unfold swap_settle, sync_src, sync_dst. rewrite Ep, El.
  apply acc_bind; [apply acc_checked_add'|intros tot _].
  apply acc_bind; [eapply acc_balance; [exact G|cbn; auto]|intros bal _].
  apply acc_guard; [intros _; reflexivity|intros _].
  apply acc_bind; [apply acc_transfer|intros w1 H1]. pose proof (transfer_good _ _ _ _ _ _ _ _ _ _ _ _ H1 G) as G1.
  apply acc_bind; [apply acc_transfer|intros w2 H2]. pose proof (transfer_good _ _ _ _ _ _ _ _ _ _ _ _ H2 G1) as G2.
  apply acc_bind; [apply acc_transfer|intros w3 H3]. pose proof (transfer_good _ _ _ _ _ _ _ _ _ _ _ _ H3 G2) as G3.
  apply acc_bind; [eapply sync_acc; [exact G3|cbn; auto|cbn; auto]|intros w4 H4].
  pose proof (sync_good _ _ _ _ _ _ _ _ _ _ H4 G3) as G4.
  apply acc_bind; [eapply sync_acc; [exact G4|cbn; auto|cbn; auto]|intros w5 H5].
  pose proof (sync_good _ _ _ _ _ _ _ _ _ _ H5 G4) as G5.
  apply acc_bind; [eapply acc_field; exact G5|intros e _].
  apply acc_guard; [intros _; reflexivity|intros _; exact I].
Qed.

Lemma bind_ext {A B} (m m' : res A) (f g : A -> res B) : m = m' -> (forall a, f a = g a) -> bind m f = bind m' g.
Proof. intros -> H. destruct m'; cbn; auto. Qed.
Lemma guard_ext {A} b e (k k' : res A) : k = k' -> guard b e k = guard b e k'.
Proof. intros ->. reflexivity. Qed.

Lemma sync_same E E' w p t m r i : same_calc E E' p m t ->
  sync_sol_value_unchecked E w POOL_STATE_ID LST_STATE_LIST_ID r (mkCpi (ro p) t) m i =
  sync_sol_value_unchecked E' w POOL_STATE_ID LST_STATE_LIST_ID r (mkCpi (ro p) t) m i.
Proof.
  intros H. unfold sync_sol_value_unchecked. apply bind_ext; [reflexivity|intros b].
  unfold invoke_lst_to_sol; cbn [cpi_prog cpi_accs mk ro]. rewrite (proj1 (H w b)). reflexivity.
Qed.
Lemma inv_l2s_same E E' w p t m a : same_calc E E' p m t ->
  invoke_lst_to_sol E w (mkCpi (ro p) t) m a = invoke_lst_to_sol E' w (mkCpi (ro p) t) m a.
Proof. intros H. unfold invoke_lst_to_sol; cbn [cpi_prog cpi_accs mk ro]. rewrite (proj1 (H w a)). reflexivity. Qed.
Lemma inv_s2l_same E E' w p t m a : same_calc E E' p m t ->
  invoke_sol_to_lst E w (mkCpi (ro p) t) m a = invoke_sol_to_lst E' w (mkCpi (ro p) t) m a.
Proof. intros H. unfold invoke_sol_to_lst; cbn [cpi_prog cpi_accs mk ro]. rewrite (proj2 (H w a)). reflexivity. Qed.

Section Settle.
Context (D : Derive) (V w : World) (ps : PoolState) (l : list LstState).
Hypothesis Hp : the_pool w = Some ps.
Hypothesis Hl : the_list w = Some l.
Variables (sm dm signer sa da r f r' f' : key) (i j : Z) (lsv ls ldv ld : LstState) (ts td tp : list Meta) (pp : key).
Hypothesis L1 : looked_up D V w sm i lsv ls r f.
Hypothesis L2 : looked_up D V w dm j ldv ld r' f'.

Lemma good_swap ms : (forall m, In m ms -> w_mint w m <> None) -> good w [r; r'] [i; j] ms.
Proof.
  intros Hm. repeat split; auto.
  - unfold the_pool in Hp. congruence.
  - exists l. split; [exact Hl|]. intros x [<-|[<-|[]]].
    + rewrite (lu_nth _ _ _ _ _ _ _ _ _ L1 l Hl). discriminate.
    + rewrite (lu_nth _ _ _ _ _ _ _ _ _ L2 l Hl). discriminate.
  - intros x [<-|[<-|[]]]; [apply (lu_tok _ _ _ _ _ _ _ _ _ L1)|apply (lu_tok _ _ _ _ _ _ _ _ _ L2)].
Qed.
Lemma good_liq ms : (forall m, In m ms -> w_mint w m <> None) -> good w [r] [i] ms.
Proof.
  intros Hm. repeat split; auto.
  - unfold the_pool in Hp. congruence.
  - exists l. split; [exact Hl|]. intros x [<-|[]]. rewrite (lu_nth _ _ _ _ _ _ _ _ _ L1 l Hl). discriminate.
  - intros x [<-|[]]. apply (lu_tok _ _ _ _ _ _ _ _ _ L1).
Qed.

Lemma swap_in_acc E accs a :
  verify_swap D w accs (si_src_lst_value_calc_accs a) (si_dst_lst_value_calc_accs a) (si_src_lst_index a) (si_dst_lst_index a) =
  (_ <- verify_swap_not_same_lst sm dm ;; _ <- verify_not_rebalancing_and_not_disabled ps ;;
   _ <- verify_lst_input_not_disabled ls ;;
   Ok (swap_accounts w signer sa da sm dm f' r r',
       (mkCpi (ro (sol_value_calculator ls)) ts, mkCpi (ro (sol_value_calculator ld)) td, mkCpi (ro pp) tp))) ->
  si_src_lst_index a = i -> si_dst_lst_index a = j -> accepted (process_swap_exact_in D E w accs a).
Proof.
  intros Hv Ei Ej. unfold process_swap_exact_in. apply acc_guard; [intros _; reflexivity|intros _]. rewrite Hv, Ei, Ej.
  apply acc_bind.
  { apply acc_bind; [apply acc_not_same|intros _ _]. apply acc_bind; [apply acc_active|intros _ _].
    apply acc_bind; [apply acc_input|intros _ _]. exact I. }
  intros (A & (c1 & c2) & c3) HA.
  apply bind_ok in HA as (? & _ & HA). apply bind_ok in HA as (? & _ & HA). apply bind_ok in HA as (? & _ & HA).
  injection HA as HA <- <- <-. subst A.
  pose proof (good_swap [] ltac:(intros ? [])) as G.
  apply acc_bind; [unfold sync_src; cbn [swap_accounts sa_pool_state sa_lst_state_list mk wr]; eapply sync_acc; [exact G|cbn; auto|cbn; auto]|].
  intros w1 H1. unfold sync_src in H1; cbn [swap_accounts sa_pool_state sa_lst_state_list mk wr] in H1.
  pose proof (sync_good _ _ _ _ _ _ _ _ _ _ H1 G) as G1.
  apply acc_bind; [unfold sync_dst; cbn [swap_accounts sa_pool_state sa_lst_state_list mk wr]; eapply sync_acc; [exact G1|cbn; auto|cbn; auto]|].
  intros w2 H2. unfold sync_dst in H2; cbn [swap_accounts sa_pool_state sa_lst_state_list mk wr] in H2.
  pose proof (sync_good _ _ _ _ _ _ _ _ _ _ H2 G1) as G2.
  cbn [swap_accounts sa_pool_state sa_lst_state_list mk wr].
  apply acc_bind; [eapply acc_field; exact G2|intros st _].
  apply acc_bind; [apply acc_range|intros (v1 & v2) _].
  apply acc_guard; [intros _; reflexivity|intros _].
  apply acc_bind; [apply acc_u64|intros o _]. apply acc_bind; [apply acc_range|intros (v3 & v4) _].
  apply acc_guard; [intros _; reflexivity|intros _]. apply acc_guard; [intros _; reflexivity|intros _].
  apply acc_bind; [eapply acc_field; exact G2|intros bps _].
  apply acc_bind; [apply acc_swap_fee|intros pf _].
  eapply settle_acc; [reflexivity|reflexivity|exact G2].
Qed.
Lemma swap_out_acc E accs a :
  verify_swap D w accs (so_src_lst_value_calc_accs a) (so_dst_lst_value_calc_accs a) (so_src_lst_index a) (so_dst_lst_index a) =
  (_ <- verify_swap_not_same_lst sm dm ;; _ <- verify_not_rebalancing_and_not_disabled ps ;;
   _ <- verify_lst_input_not_disabled ls ;;
   Ok (swap_accounts w signer sa da sm dm f' r r',
       (mkCpi (ro (sol_value_calculator ls)) ts, mkCpi (ro (sol_value_calculator ld)) td, mkCpi (ro pp) tp))) ->
  so_src_lst_index a = i -> so_dst_lst_index a = j -> accepted (process_swap_exact_out D E w accs a).
Proof.
  intros Hv Ei Ej. unfold process_swap_exact_out. apply acc_guard; [intros _; reflexivity|intros _]. rewrite Hv, Ei, Ej.
  apply acc_bind.
  { apply acc_bind; [apply acc_not_same|intros _ _]. apply acc_bind; [apply acc_active|intros _ _].
    apply acc_bind; [apply acc_input|intros _ _]. exact I. }
  intros (A & (c1 & c2) & c3) HA.
  apply bind_ok in HA as (? & _ & HA). apply bind_ok in HA as (? & _ & HA). apply bind_ok in HA as (? & _ & HA).
  injection HA as HA <- <- <-. subst A.
  pose proof (good_swap [] ltac:(intros ? [])) as G.
  apply acc_bind; [unfold sync_src; cbn [swap_accounts sa_pool_state sa_lst_state_list mk wr]; eapply sync_acc; [exact G|cbn; auto|cbn; auto]|].
  intros w1 H1. unfold sync_src in H1; cbn [swap_accounts sa_pool_state sa_lst_state_list mk wr] in H1.
  pose proof (sync_good _ _ _ _ _ _ _ _ _ _ H1 G) as G1.
  apply acc_bind; [unfold sync_dst; cbn [swap_accounts sa_pool_state sa_lst_state_list mk wr]; eapply sync_acc; [exact G1|cbn; auto|cbn; auto]|].
  intros w2 H2. unfold sync_dst in H2; cbn [swap_accounts sa_pool_state sa_lst_state_list mk wr] in H2.
  pose proof (sync_good _ _ _ _ _ _ _ _ _ _ H2 G1) as G2.
  cbn [swap_accounts sa_pool_state sa_lst_state_list mk wr].
  apply acc_bind; [eapply acc_field; exact G2|intros st _].
  apply acc_bind; [apply acc_range|intros (v1 & v2) _].
  apply acc_guard; [intros _; reflexivity|intros _].
  apply acc_bind; [apply acc_u64|intros o _]. apply acc_bind; [apply acc_range|intros (v3 & v4) _].
  apply acc_guard; [intros _; reflexivity|intros _]. apply acc_guard; [intros _; reflexivity|intros _].
  apply acc_bind; [eapply acc_field; exact G2|intros bps _].
  apply acc_bind; [apply acc_swap_fee|intros pf _].
  eapply settle_acc; [reflexivity|reflexivity|exact G2].
Qed.

Lemma add_acc E accs a : w_mint w (lp_token_mint ps) <> None ->
  verify_liquidity D w accs true (al_lst_value_calc_accs a) (al_lst_index a) =
  (_ <- verify_not_rebalancing_and_not_disabled ps ;; _ <- verify_lst_input_not_disabled ls ;;
   Ok (liq_accounts w ps signer sa da sm f r, (mkCpi (ro (sol_value_calculator ls)) ts, mkCpi (ro pp) tp))) ->
  al_lst_index a = i -> accepted (process_add_liquidity D E w accs a).
Proof.
  intros Hlp Hv Ei. unfold process_add_liquidity. apply acc_guard; [intros _; reflexivity|intros _]. rewrite Hv, Ei.
  apply acc_bind.
  { apply acc_bind; [apply acc_active|intros _ _]. apply acc_bind; [apply acc_input|intros _ _]. exact I. }
  intros (A & c1 & c2) HA.
  apply bind_ok in HA as (? & _ & HA). apply bind_ok in HA as (? & _ & HA).
  injection HA as HA <- <-. subst A.
  pose proof (good_liq [lp_token_mint ps] ltac:(intros ? [<-|[]]; exact Hlp)) as G.
  unfold sync_liq. cbn [liq_accounts la_pool_state la_lst_state_list la_pool_reserves la_lst_mint la_lp_token_mint mk wr ro].
  apply acc_bind; [eapply sync_acc; [exact G|cbn; auto|cbn; auto]|]. intros w1 H1.
  pose proof (sync_good _ _ _ _ _ _ _ _ _ _ H1 G) as G1.
  apply acc_bind; [eapply acc_field; exact G1|intros st _].
  apply acc_bind; [apply acc_range|intros (v1 & v2) _]. apply acc_bind; [apply acc_u64|intros o _].
  apply acc_guard; [intros _; reflexivity|intros _].
  apply acc_bind; [eapply acc_field; exact G1|intros bps _].
  apply acc_bind; [apply acc_add_fee|intros (v3 & v4) _].
  apply acc_bind; [eapply acc_field; exact G1|intros tot _].
  apply acc_bind; [eapply acc_supply; [exact G1|cbn; auto]|intros su _].
  apply acc_bind; [apply acc_lp_mint|intros lpm _].
  apply acc_guard; [intros _; reflexivity|intros _]. apply acc_guard; [intros _; reflexivity|intros _].
  apply acc_bind; [apply acc_transfer|intros w2 H2]. pose proof (transfer_good _ _ _ _ _ _ _ _ _ _ _ _ H2 G1) as G2.
  apply acc_bind; [apply acc_transfer|intros w3 H3]. pose proof (transfer_good _ _ _ _ _ _ _ _ _ _ _ _ H3 G2) as G3.
  apply acc_bind; [apply acc_mint|intros w4 H4]. pose proof (mint_good _ _ _ _ _ _ _ _ _ _ _ H4 G3) as G4.
  apply acc_bind; [eapply sync_acc; [exact G4|cbn; auto|cbn; auto]|]. intros w5 H5.
  pose proof (sync_good _ _ _ _ _ _ _ _ _ _ H5 G4) as G5.
  apply acc_bind; [eapply acc_field; exact G5|intros e _].
  apply acc_guard; [intros _; reflexivity|intros _; exact I].
Qed.
Lemma rem_acc E accs a : w_mint w (lp_token_mint ps) <> None ->
  verify_liquidity D w accs false (rl_lst_value_calc_accs a) (rl_lst_index a) =
  (_ <- verify_not_rebalancing_and_not_disabled ps ;; _ <- Ok tt ;;
   Ok (liq_accounts w ps signer sa da sm f r, (mkCpi (ro (sol_value_calculator ls)) ts, mkCpi (ro pp) tp))) ->
  rl_lst_index a = i -> accepted (process_remove_liquidity D E w accs a).
Proof.
  intros Hlp Hv Ei. unfold process_remove_liquidity. apply acc_guard; [intros _; reflexivity|intros _]. rewrite Hv, Ei.
  apply acc_bind.
  { apply acc_bind; [apply acc_active|intros _ _]. exact I. }
  intros (A & c1 & c2) HA.
  apply bind_ok in HA as (? & _ & HA). apply bind_ok in HA as (? & _ & HA).
  injection HA as HA <- <-. subst A.
  pose proof (good_liq [lp_token_mint ps] ltac:(intros ? [<-|[]]; exact Hlp)) as G.
  unfold sync_liq. cbn [liq_accounts la_pool_state la_lst_state_list la_pool_reserves la_lst_mint la_lp_token_mint mk wr ro].
  apply acc_bind; [eapply sync_acc; [exact G|cbn; auto|cbn; auto]|]. intros w1 H1.
  pose proof (sync_good _ _ _ _ _ _ _ _ _ _ H1 G) as G1.
  apply acc_bind; [eapply acc_field; exact G1|intros tot _].
  apply acc_bind; [eapply acc_supply; [exact G1|cbn; auto]|intros su _].
  apply acc_bind; [apply acc_lp_value|intros lpv _].
  apply acc_bind; [apply acc_u64|intros o _].
  apply acc_guard; [intros _; reflexivity|intros _].
  apply acc_bind; [apply acc_range|intros (v1 & v2) _].
  apply acc_bind; [eapply acc_field; exact G1|intros bps _].
  apply acc_bind; [apply acc_rem_fee|intros pf _].
  apply acc_guard; [intros _; reflexivity|intros _]. apply acc_guard; [intros _; reflexivity|intros _].
  apply acc_bind; [apply acc_burn|intros w2 H2]. pose proof (burn_good _ _ _ _ _ _ _ _ _ _ _ H2 G1) as G2.
  apply acc_bind; [apply acc_transfer|intros w3 H3]. pose proof (transfer_good _ _ _ _ _ _ _ _ _ _ _ _ H3 G2) as G3.
  apply acc_bind; [apply acc_transfer|intros w4 H4]. pose proof (transfer_good _ _ _ _ _ _ _ _ _ _ _ _ H4 G3) as G4.
  eapply sync_acc; [exact G4|cbn; auto|cbn; auto].
Qed.

(** The same answers give the same outcome. *)
Section Same.
Context (E E' : Env).
Hypothesis S1 : same_calc E E' (sol_value_calculator ls) sm ts.

Lemma settle_same w0 st a b p : same_calc E E' (sol_value_calculator ld) dm td ->
  let A := swap_accounts w signer sa da sm dm f' r r' in
  swap_settle E w0 A (mkCpi (ro (sol_value_calculator ls)) ts) (mkCpi (ro (sol_value_calculator ld)) td) i j st a b p =
  swap_settle E' w0 A (mkCpi (ro (sol_value_calculator ls)) ts) (mkCpi (ro (sol_value_calculator ld)) td) i j st a b p.
Proof.
  intros S2 A. unfold swap_settle. apply bind_ext; [reflexivity|intros t]. apply bind_ext; [reflexivity|intros t0].
  apply guard_ext. do 3 (apply bind_ext; [reflexivity|intros ?]).
  apply bind_ext; [apply sync_same, S1|intros ?]. apply bind_ext; [apply sync_same, S2|intros ?]. reflexivity.
Qed.
Lemma swap_in_same accs a :
  same_calc E E' (sol_value_calculator ld) dm td -> same_price_swap E E' pp sm dm tp ->
  verify_swap D w accs (si_src_lst_value_calc_accs a) (si_dst_lst_value_calc_accs a) (si_src_lst_index a) (si_dst_lst_index a) =
  (_ <- verify_swap_not_same_lst sm dm ;; _ <- verify_not_rebalancing_and_not_disabled ps ;;
   _ <- verify_lst_input_not_disabled ls ;;
   Ok (swap_accounts w signer sa da sm dm f' r r',
       (mkCpi (ro (sol_value_calculator ls)) ts, mkCpi (ro (sol_value_calculator ld)) td, mkCpi (ro pp) tp))) ->
  si_src_lst_index a = i -> si_dst_lst_index a = j ->
  process_swap_exact_in D E w accs a = process_swap_exact_in D E' w accs a.
Proof.
  intros S2 S3 Hv Ei Ej. unfold process_swap_exact_in. apply guard_ext. rewrite Hv.
  destruct (verify_swap_not_same_lst sm dm); [cbn [bind]|reflexivity].
  destruct (verify_not_rebalancing_and_not_disabled ps); [cbn [bind]|reflexivity].
  destruct (verify_lst_input_not_disabled ls); [cbn [bind]|reflexivity]. rewrite Ei, Ej.
  apply bind_ext; [apply sync_same, S1|intros w1]. apply bind_ext; [apply sync_same, S2|intros w2].
  apply bind_ext; [reflexivity|intros st]. apply bind_ext; [apply inv_l2s_same, S1|intros (x & y)].
  apply guard_ext. apply bind_ext.
  { unfold invoke_price_exact_in; cbn [cpi_prog cpi_accs mk ro swap_accounts sa_src_lst_mint sa_dst_lst_mint].
    rewrite (proj1 (S3 w2 (si_amount a) x)). reflexivity. }
  intros o. apply bind_ext; [apply inv_s2l_same, S2|intros (x' & y')]. do 2 apply guard_ext.
  do 2 (apply bind_ext; [reflexivity|intros ?]). apply settle_same, S2.
Qed.
Lemma swap_out_same accs a :
  same_calc E E' (sol_value_calculator ld) dm td -> same_price_swap E E' pp sm dm tp ->
  verify_swap D w accs (so_src_lst_value_calc_accs a) (so_dst_lst_value_calc_accs a) (so_src_lst_index a) (so_dst_lst_index a) =
  (_ <- verify_swap_not_same_lst sm dm ;; _ <- verify_not_rebalancing_and_not_disabled ps ;;
   _ <- verify_lst_input_not_disabled ls ;;
   Ok (swap_accounts w signer sa da sm dm f' r r',
       (mkCpi (ro (sol_value_calculator ls)) ts, mkCpi (ro (sol_value_calculator ld)) td, mkCpi (ro pp) tp))) ->
  so_src_lst_index a = i -> so_dst_lst_index a = j ->
  process_swap_exact_out D E w accs a = process_swap_exact_out D E' w accs a.
Proof.
  intros S2 S3 Hv Ei Ej. unfold process_swap_exact_out. apply guard_ext. rewrite Hv.
  destruct (verify_swap_not_same_lst sm dm); [cbn [bind]|reflexivity].
  destruct (verify_not_rebalancing_and_not_disabled ps); [cbn [bind]|reflexivity].
  destruct (verify_lst_input_not_disabled ls); [cbn [bind]|reflexivity]. rewrite Ei, Ej.
  apply bind_ext; [apply sync_same, S1|intros w1]. apply bind_ext; [apply sync_same, S2|intros w2].
  apply bind_ext; [reflexivity|intros st]. apply bind_ext; [apply inv_l2s_same, S2|intros (x & y)].
  apply guard_ext. apply bind_ext.
  { unfold invoke_price_exact_out; cbn [cpi_prog cpi_accs mk ro swap_accounts sa_src_lst_mint sa_dst_lst_mint].
    rewrite (proj2 (S3 w2 (so_amount a) y)). reflexivity. }
  intros o. apply bind_ext; [apply inv_s2l_same, S1|intros (x' & y')]. do 2 apply guard_ext.
  do 2 (apply bind_ext; [reflexivity|intros ?]). apply settle_same, S2.
Qed.
Lemma add_same accs a : same_price_lp E E' pp sm tp ->
  verify_liquidity D w accs true (al_lst_value_calc_accs a) (al_lst_index a) =
  (_ <- verify_not_rebalancing_and_not_disabled ps ;; _ <- verify_lst_input_not_disabled ls ;;
   Ok (liq_accounts w ps signer sa da sm f r, (mkCpi (ro (sol_value_calculator ls)) ts, mkCpi (ro pp) tp))) ->
  al_lst_index a = i -> process_add_liquidity D E w accs a = process_add_liquidity D E' w accs a.
Proof.
  intros S3 Hv Ei. unfold process_add_liquidity. apply guard_ext. rewrite Hv.
  destruct (verify_not_rebalancing_and_not_disabled ps); [cbn [bind]|reflexivity].
  destruct (verify_lst_input_not_disabled ls); [cbn [bind]|reflexivity]. rewrite Ei.
  apply bind_ext; [apply sync_same, S1|intros w1].
  apply bind_ext; [reflexivity|intros st]. apply bind_ext; [apply inv_l2s_same, S1|intros (x & y)].
  apply bind_ext.
  { unfold invoke_price_lp_to_mint; cbn [cpi_prog cpi_accs mk ro liq_accounts la_lst_mint].
    rewrite (proj1 (S3 w1 (al_lst_amount a) x)). reflexivity. }
  intros o. apply guard_ext. apply bind_ext; [reflexivity|intros bps]. apply bind_ext; [reflexivity|intros (x' & y')].
  do 3 (apply bind_ext; [reflexivity|intros ?]). do 2 apply guard_ext.
  do 3 (apply bind_ext; [reflexivity|intros ?]). apply bind_ext; [apply sync_same, S1|intros w5]. reflexivity.
Qed.
Lemma rem_same accs a : same_price_lp E E' pp sm tp ->
  verify_liquidity D w accs false (rl_lst_value_calc_accs a) (rl_lst_index a) =
  (_ <- verify_not_rebalancing_and_not_disabled ps ;; _ <- Ok tt ;;
   Ok (liq_accounts w ps signer sa da sm f r, (mkCpi (ro (sol_value_calculator ls)) ts, mkCpi (ro pp) tp))) ->
  rl_lst_index a = i -> process_remove_liquidity D E w accs a = process_remove_liquidity D E' w accs a.
Proof.
  intros S3 Hv Ei. unfold process_remove_liquidity. apply guard_ext. rewrite Hv.
  destruct (verify_not_rebalancing_and_not_disabled ps); [cbn [bind]|reflexivity]. rewrite Ei.
  apply bind_ext; [apply sync_same, S1|intros w1].
  do 2 (apply bind_ext; [reflexivity|intros ?]). apply bind_ext; [reflexivity|intros lpv].
  apply bind_ext.
  { unfold invoke_price_lp_to_redeem; cbn [cpi_prog cpi_accs mk ro liq_accounts la_lst_mint].
    rewrite (proj2 (S3 w1 (rl_lp_token_amount a) lpv)). reflexivity. }
  intros o. apply guard_ext. apply bind_ext; [apply inv_s2l_same, S1|intros (x & y)].
  do 2 (apply bind_ext; [reflexivity|intros ?]). do 2 apply guard_ext.
  do 3 (apply bind_ext; [reflexivity|intros ?]). apply sync_same, S1.
Qed.
End Same.
End Settle.
