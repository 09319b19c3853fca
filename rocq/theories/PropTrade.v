(** C49: SyncSolValue, the swaps, AddLiquidity, RemoveLiquidity, StartRebalance and EndRebalance are accepted
    exactly when the rules of TradeSpec say so, and lead exactly to the world they say. *)
From Coq Require Import ZArith List Bool Lia.
From Verif Require Import Base Ratio Calc State Controller Inversion ProcInv Spec CalcProofs InvProofs
  TokProofs AccessProofs ShapeProofs MoneyProofs Concrete ConcreteReach PropState PropAccess PropSync AdminSpec
  PropAdmin TradeSpec.
Import ListNotations.
Open Scope Z_scope.

(* ------------------------------------------------------------------ *)
(** * What the steps of one instruction preserve *)

(** Everything about an entry but its value. *)
Definition like (a b : LstState) : Prop :=
  is_input_disabled a = is_input_disabled b /\ pool_reserves_bump a = pool_reserves_bump b /\
  protocol_fee_accumulator_bump a = protocol_fee_accumulator_bump b /\ ls_mint a = ls_mint b /\
  sol_value_calculator a = sol_value_calculator b.
Lemma like_refl a : like a a. Proof. repeat split. Qed.
Lemma like_trans a b c : like a b -> like b c -> like a c. Proof. unfold like. intuition congruence. Qed.

(** [w] is within an instruction that started with the pool [ps0], the list [l0] and the world [w0]. *)
Record within (ps0 : PoolState) (l0 : list LstState) (w0 w : World) : Prop := {
  wi_pool : exists ps l, the_pool w = Some ps /\ the_list w = Some l /\
    total_sol_value ps = sumZ (map sol_value l) /\ Forall (fun x => 0 <= sol_value x) l /\
    0 <= total_sol_value ps <= U64_MAX /\
    Forall2 like l0 l /\ lp_token_mint ps = lp_token_mint ps0 /\ pricing_program ps = pricing_program ps0 /\
    trading_protocol_fee_bps ps = trading_protocol_fee_bps ps0 /\ lp_protocol_fee_bps ps = lp_protocol_fee_bps ps0;
  wi_owner : w_owner w = w_owner w0;
  wi_rec : w_rec w = w_rec w0;
  wi_tok : forall k, w_tok w0 k <> None -> w_tok w k <> None;
  wi_mint : forall k i, w_mint w0 k = Some i -> exists i', w_mint w k = Some i' /\ m_auth i' = m_auth i;
  wi_u64 : tokens_u64 w }.

Lemma like_list_refl l : Forall2 like l l.
Proof. induction l; constructor; auto using like_refl. Qed.
Lemma like_list_trans a b c : Forall2 like a b -> Forall2 like b c -> Forall2 like a c.
Proof.
  intros H. revert c. induction H; intros c Hc; inversion Hc; subst; constructor; eauto using like_trans.
Qed.
Lemma like_nth l0 l n ls0 : Forall2 like l0 l -> nth_error l0 n = Some ls0 ->
  exists ls, nth_error l n = Some ls /\ like ls0 ls.
Proof.
  intros H. revert n. induction H; intros [|n] Hn; try discriminate; cbn in *.
  - injection Hn as ->. eauto.
  - auto.
Qed.
Lemma like_set b a ls v : Forall2 like (b ++ ls :: a)
  (b ++ mkLst (is_input_disabled ls) (pool_reserves_bump ls) (protocol_fee_accumulator_bump ls) v (ls_mint ls)
     (sol_value_calculator ls) :: a).
Proof. apply Forall2_app; [apply like_list_refl|]. constructor; [repeat split|apply like_list_refl]. Qed.

Lemma sumZ_put b a (ls ls' : LstState) : sumZ (map sol_value (b ++ ls' :: a)) =
  sumZ (map sol_value (b ++ ls :: a)) - sol_value ls + sol_value ls'.
Proof. rewrite !map_app, !sumZ_app. cbn. lia. Qed.

Lemma measured_within D E ps0 l0 w0 w i more w' : within ps0 l0 w0 w -> measured D E w i more w' ->
  within ps0 l0 w0 w'.
Proof.
  intros [(ps & l & Hp & Hl & Hs & Hn & Hu & Hk & F1 & F2 & F3 & F4) O R T M U] H.
  destruct H as [ps1 b ls a v hi Hp1 Hl1 Hi An Uv Uh Fit].
  assert (ps1 = ps) by congruence. subst ps1. assert (l = b ++ ls :: a) by congruence. subst l.
  constructor; auto.
  exists (mkPool (total_sol_value ps - sol_value ls + v) (trading_protocol_fee_bps ps)
               (lp_protocol_fee_bps ps) (version ps) (is_disabled ps) (is_rebalancing ps) (admin ps)
               (rebalance_authority ps) (protocol_fee_beneficiary ps) (pricing_program ps) (lp_token_mint ps)).
  eexists. unfold the_pool, the_list. cbn [w_pool w_list put_pool put_list]. rewrite !upd_same.
  split; [reflexivity|]. split; [reflexivity|]. cbn [total_sol_value lp_token_mint pricing_program trading_protocol_fee_bps lp_protocol_fee_bps].
  rewrite (sumZ_put b a ls). cbn [sol_value].
  split; [lia|]. apply Forall_app in Hn as (N1 & N2). inversion N2 as [|? ? N3 N4]; subst. split.
  { apply Forall_app. split; auto. constructor; auto. cbn. apply Uv. }
  split. { rewrite Hs in Fit |- *. split; [|exact Fit].
    assert (sol_value ls <= sumZ (map sol_value (b ++ ls :: a))).
    { eapply (nth_sum_le _ (length b)); [|apply nth_here]. apply Forall_app. auto. }
    destruct Uv. lia. }
  split; [eapply like_list_trans; [exact Hk|apply like_set]|]. auto.
Qed.

Lemma within_tokens ps0 l0 w0 w w' : within ps0 l0 w0 w -> ctl_eq w w' -> w_owner w' = w_owner w ->
  (forall k, w_tok w k <> None -> w_tok w' k <> None) ->
  (forall k i, w_mint w k = Some i -> exists i', w_mint w' k = Some i' /\ m_auth i' = m_auth i) ->
  tokens_u64 w' -> within ps0 l0 w0 w'.
Proof.
  intros [P O R T M U] (C1 & C2 & C3 & C4 & C5) O' T' M' U'. constructor; auto; try congruence.
  - unfold the_pool, the_list. rewrite C1, C2. exact P.
  - intros k i Hk. destruct (M k i Hk) as (i1 & H1 & A1). destruct (M' k i1 H1) as (i2 & H2 & A2).
    exists i2. split; congruence.
Qed.

Ltac look := repeat match goal with
  | |- context [upd _ ?a _ ?b] => unfold upd at 1; destruct (Z.eqb_spec b a); subst
  | H : context [upd _ ?a _ ?b] |- _ => unfold upd at 1 in H; destruct (Z.eqb_spec b a); subst
  end.

Lemma paid_within ps0 l0 w0 w m from to owner amt w' : within ps0 l0 w0 w -> 0 <= amt ->
  paid w m from to owner amt w' -> within ps0 l0 w0 w'.
Proof.
  intros W Ha H. destruct H as [f t Hne (F1 & F2 & F3) (T1 & T2 & T3) Ho Hle Hmax|]; [|exact W].
  pose proof (wi_u64 _ _ _ _ W) as (U1 & U2).
  eapply within_tokens; [exact W|repeat split|reflexivity| | | ].
  - intros k Hk. cbn [w_tok put_tok]. look; congruence.
  - intros k i Hk. exists i. auto.
  - split; [|exact U2]. intros k x Hx. cbn [w_tok put_tok] in Hx.
    pose proof (U1 _ _ F1). pose proof (U1 _ _ T1). unfold U64 in *.
    revert Hx. unfold upd. destruct (k =? to); [intros [= <-]; cbn [ta_amount]; unfold U64 in *; lia|].
    destruct (k =? from); [intros [= <-]; cbn [ta_amount]; unfold U64 in *; lia|]. apply U1.
Qed.

Lemma minted_within ps0 l0 w0 w lp to amt w' : within ps0 l0 w0 w -> 0 <= amt ->
  minted w lp to amt w' -> within ps0 l0 w0 w'.
Proof.
  intros W Ha H. destruct H as [t mi (T1 & T2 & T3) Hm Hx Hy].
  pose proof (wi_u64 _ _ _ _ W) as (U1 & U2).
  eapply within_tokens; [exact W|repeat split|reflexivity| | | ].
  - intros k Hk. cbn [w_tok put_tok put_mint]. look; congruence.
  - intros k i Hk. cbn [w_mint put_tok put_mint]. unfold upd. destruct (Z.eqb_spec k lp).
    + subst. eexists. split; [reflexivity|]. cbn. congruence.
    + eauto.
  - pose proof (U1 _ _ T1). pose proof (U2 _ _ Hm). unfold U64 in *.
    split; intros k x; cbn [w_tok w_mint put_tok put_mint]; unfold upd.
    + destruct (k =? to); [intros [= <-]; cbn [ta_amount]; unfold U64 in *; lia|]. apply U1.
    + destruct (k =? lp); [intros [= <-]; cbn [m_supply]; unfold U64 in *; lia|]. apply U2.
Qed.
Lemma burned_within ps0 l0 w0 w lp from owner amt w' : within ps0 l0 w0 w -> 0 <= amt ->
  burned w lp from owner amt w' -> within ps0 l0 w0 w'.
Proof.
  intros W Ha H. destruct H as [t mi (T1 & T2 & T3) Ho Hm Hx Hy].
  pose proof (wi_u64 _ _ _ _ W) as (U1 & U2).
  eapply within_tokens; [exact W|repeat split|reflexivity| | | ].
  - intros k Hk. cbn [w_tok put_tok put_mint]. look; congruence.
  - intros k i Hk. cbn [w_mint put_tok put_mint]. unfold upd. destruct (Z.eqb_spec k lp).
    + subst. eexists. split; [reflexivity|]. cbn. congruence.
    + eauto.
  - pose proof (U1 _ _ T1). pose proof (U2 _ _ Hm). unfold U64 in *.
    split; intros k x; cbn [w_tok w_mint put_tok put_mint]; unfold upd.
    + destruct (k =? from); [intros [= <-]; cbn [ta_amount]; unfold U64 in *; lia|]. apply U1.
    + destruct (k =? lp); [intros [= <-]; cbn [m_supply]; unfold U64 in *; lia|]. apply U2.
Qed.

(* ------------------------------------------------------------------ *)
(** * The steps are the model's *)
Lemma sync_measured D E ps0 l0 w0 w i more c r ls0 w' :
  within ps0 l0 w0 w -> 0 <= i -> nth_error l0 (Z.to_nat i) = Some ls0 ->
  reserves_key D w0 (ls_mint ls0) = r -> w_tok w0 r <> None ->
  mk (cpi_prog c) = sol_value_calculator ls0 -> cpi_accs c = more ->
  sync_sol_value_unchecked E w POOL_STATE_ID LST_STATE_LIST_ID r c (ls_mint ls0) i = Ok w' <->
  measured D E w i more w'.
Proof.
  intros W Hi Hn Hr Ht Hc Hm. pose proof W as W'.
  destruct W as [(ps & l & Hp & Hl & Hs & Hnn & Hu & Hk & _) O R T M U].
  destruct (like_nth _ _ _ _ Hk Hn) as (ls & Hls & (K1 & K2 & K3 & K4 & K5)).
  assert (Hle : sol_value ls <= total_sol_value ps) by (rewrite Hs; eapply nth_sum_le; eauto).
  assert (Hkey : reserves_key D w (ls_mint ls) = r) by (unfold reserves_key in *; rewrite O, <- K4; exact Hr).
  pose proof (T r Ht) as Tr. destruct (w_tok w r) as [t|] eqn:Htk; [clear Tr|congruence].
  split.
  - intros H. apply sync_inv in H.
    destruct H as (tk & ps1 & l1 & ls1 & lo & hi & Tk & An & U1 & U2 & P1 & L1 & N1 & Hle1 & Hmax & ->).
    unfold the_pool, the_list in *.
    assert (ps1 = ps) by congruence. assert (l1 = l) by congruence. subst ps1 l1.
    assert (ls1 = ls) by (unfold nth_lst in N1; congruence). subst ls1.
    destruct (nth_split_at l i ls Hi Hls) as (b & a & -> & Hb). subst i. rewrite Nat2Z.id, replace_here.
    eapply measured_as; eauto. unfold balance. rewrite Hkey, Htk, <- K4, <- K5, <- Hc. subst more.
    assert (tk = t) by congruence. subst. exact An.
  - intros H. destruct H as [ps1 b ls1 a v hi Hp1 Hl1 Hb An Uv Uh Fit].
    assert (ps1 = ps) by congruence. subst ps1. assert (l = b ++ ls1 :: a) by congruence. subst l i.
    rewrite Nat2Z.id, nth_here in Hls. injection Hls as ->.
    unfold the_pool, the_list in *.
    unfold sync_sol_value_unchecked, token_account_balance. rewrite Htk. cbn [of_option bind].
    unfold invoke_lst_to_sol. rewrite Hc, Hm, K5, K4.
    unfold balance in An. rewrite Hkey, Htk in An.
    rewrite (proj2 (decode_range_ok _ v hi) (conj An (conj Uv Uh))). cbn [bind].
    unfold try_pool_state, try_lst_state_list. rewrite Hp, Hl. cbn [of_option bind]. unfold nth_lst.
    rewrite Nat2Z.id, nth_here. cbn [of_option bind].
    unfold sync_sol_value_with_retval, checked_sub, checked_add.
    rewrite (proj2 (Z.leb_le _ _)) by exact Hle. cbn [bind]. rewrite (proj2 (Z.leb_le _ _)) by exact Fit. cbn [bind].
    rewrite replace_here. reflexivity.
Qed.

Lemma transfer_paid w m from to owner amt prog w' : prog = w_owner w m ->
  is_token_program (w_owner w m) = true -> w_mint w m <> None ->
  transfer_checked w prog from to m owner true amt = Ok w' <-> paid w m from to owner amt w'.
Proof.
  intros -> Hp Hm. split.
  - intros H. apply transfer_inv in H.
    destruct H as (f & t & mi & _ & F & T & _ & O1 & O2 & _ & M1 & M2 & Ow & _ & Hle & [(He & ->)|(Hne & Hmax & ->)]).
    + eapply paid_to_itself; eauto. repeat split; eauto.
    + eapply paid_across; eauto; repeat split; eauto.
  - intros H. destruct H as [f t Hne (F1 & F2 & F3) (T1 & T2 & T3) Ho Hle Hmax|f He (F1 & F2 & F3) Ho Hle];
    unfold transfer_checked; rewrite Hp, F1; cbn [guard of_option bind].
    + rewrite T1. cbn [of_option bind]. destruct (w_mint w m) as [mi|]; [|congruence]. cbn [of_option bind].
      rewrite F3, T3, F2, T2, Ho, !Z.eqb_refl. cbn [andb guard]. rewrite (proj2 (Z.leb_le _ _)) by exact Hle. cbn [guard].
      rewrite (proj2 (Z.eqb_neq _ _)) by exact Hne. rewrite (proj2 (Z.leb_le _ _)) by exact Hmax. reflexivity.
    + rewrite <- He, F1. cbn [of_option bind]. destruct (w_mint w m) as [mi|]; [|congruence]. cbn [of_option bind].
      rewrite F3, F2, Ho, !Z.eqb_refl. cbn [andb guard]. rewrite (proj2 (Z.leb_le _ _)) by exact Hle. reflexivity.
Qed.

Lemma mint_minted w lp to amt w' mi : w_owner w lp = SPL_TOKEN_ID -> w_mint w lp = Some mi ->
  m_auth mi = Some POOL_STATE_ID ->
  mint_to w SPL_TOKEN_ID lp to POOL_STATE_ID true amt = Ok w' <-> minted w lp to amt w'.
Proof.
  intros Ho Hm Ha. split.
  - intros H. apply mint_to_inv in H. destruct H as (t & i & _ & T & M & O1 & O2 & Tm & _ & _ & X & Y & ->).
    assert (i = mi) by congruence. subst i. eapply minted_to; eauto. repeat split; congruence.
  - intros H. destruct H as [t i (T1 & T2 & T3) M X Y]. assert (i = mi) by congruence. subst i.
    unfold mint_to. change (is_token_program SPL_TOKEN_ID) with true. cbn [guard].
    rewrite M, T1. cbn [of_option bind]. rewrite T3, Ho, T2, Ha, !Z.eqb_refl. cbn [andb guard].
    rewrite (proj2 (Z.leb_le _ _)) by exact X. rewrite (proj2 (Z.leb_le _ _)) by exact Y. cbn [andb guard].
    rewrite <- Ha. reflexivity.
Qed.
Lemma burn_burned w lp from owner amt w' : w_owner w lp = SPL_TOKEN_ID ->
  burn w SPL_TOKEN_ID lp from owner true amt = Ok w' <-> burned w lp from owner amt w'.
Proof.
  intros Ho. split.
  - intros H. apply burn_inv in H. destruct H as (t & i & _ & T & M & O1 & O2 & Tm & Ow & _ & X & Y & ->).
    eapply burned_from; eauto. repeat split; congruence.
  - intros H. destruct H as [t i (T1 & T2 & T3) Ow M X Y].
    unfold burn. change (is_token_program SPL_TOKEN_ID) with true. cbn [guard].
    rewrite M, T1. cbn [of_option bind]. rewrite T3, Ho, T2, Ow, !Z.eqb_refl. cbn [andb guard].
    rewrite (proj2 (Z.leb_le _ _)) by exact X. rewrite (proj2 (Z.leb_le _ _)) by exact Y. reflexivity.
Qed.

(* ------------------------------------------------------------------ *)
(** * The amounts are the model's *)
Lemma part_is bps x : 0 <= bps <= 10000 -> 0 <= x -> ceil_bps_fee bps x = Ok (protocol_part bps x).
Proof.
  intros Hb Hx. unfold ceil_bps_fee, ceil_fee_charged, BPS_DENOMINATOR, protocol_part, ceil_div.
  destruct (Z.ltb_spec 10000 bps); [lia|]. change (10000 =? 0) with false. rewrite orb_false_r.
  destruct (Z.eqb_spec bps 0) as [->|]; [rewrite Z.mul_0_r; reflexivity|]. f_equal. f_equal. lia.
Qed.
Lemma part_bound bps x : 0 <= bps <= 10000 -> 0 <= x -> 0 <= protocol_part bps x <= x.
Proof.
  intros Hb Hx. unfold protocol_part. split.
  - apply Z.div_pos; nia.
  - apply Z.lt_succ_r, Z.div_lt_upper_bound; nia.
Qed.
Lemma floor_is part tokens value : tokens <> 0 -> 0 <= in_tokens part tokens value <= U64_MAX ->
  floor_apply tokens value part = Ok (in_tokens part tokens value).
Proof.
  unfold floor_apply, in_tokens. intros Ht H. rewrite (proj2 (Z.eqb_neq tokens 0) Ht). cbn [orb].
  destruct (value =? 0); [reflexivity|]. cbv zeta. rewrite (proj2 (Z.leb_le _ _)) by lia. reflexivity.
Qed.
Lemma floor_was part tokens value x : tokens <> 0 ->
  floor_apply tokens value part = Ok x -> x = in_tokens part tokens value.
Proof.
  unfold floor_apply, in_tokens. intros Ht. rewrite (proj2 (Z.eqb_neq tokens 0) Ht). cbn [orb].
  destruct (value =? 0); [congruence|]. cbv zeta. destruct (_ <=? U64_MAX); congruence.
Qed.
Lemma in_tokens_nonneg p t v : 0 <= p -> 0 <= t -> 0 <= v -> 0 <= in_tokens p t v.
Proof.
  intros. unfold in_tokens. destruct (Z.eqb_spec v 0); [lia|]. apply Z.div_pos; nia.
Qed.
Lemma in_tokens_le p t v : 0 <= p <= v -> 0 <= t -> in_tokens p t v <= t.
Proof.
  intros. unfold in_tokens. destruct (Z.eqb_spec v 0); [lia|]. apply Z.div_le_upper_bound; nia.
Qed.

Lemma swap_fee_was bps sin sout out x : 0 <= bps <= 10000 -> out <> 0 ->
  calc_swap_protocol_fees sin sout out bps = Ok x -> x = swap_fee bps sin sout out.
Proof.
  intros Hb Ho. unfold calc_swap_protocol_fees, swap_fee. rewrite sat_sub_spec, part_is by (auto; lia).
  cbn [bind]. apply floor_was. exact Ho.
Qed.
Lemma swap_fee_is bps sin sout out : 0 <= bps <= 10000 -> out <> 0 -> 0 <= sout -> 0 <= out ->
  swap_fee bps sin sout out <= U64_MAX ->
  calc_swap_protocol_fees sin sout out bps = Ok (swap_fee bps sin sout out) /\ 0 <= swap_fee bps sin sout out.
Proof.
  intros Hb Ho H1 H2 Hm. unfold calc_swap_protocol_fees, swap_fee in *. rewrite sat_sub_spec, part_is by (auto; lia).
  cbn [bind]. pose proof (part_bound bps (Z.max 0 (sin - sout)) Hb ltac:(lia)).
  pose proof (in_tokens_nonneg (protocol_part bps (Z.max 0 (sin - sout))) out sout ltac:(lia) H2 H1).
  split; [|assumption]. apply floor_is; auto.
Qed.
Lemma add_fee_was bps amt value net r x : 0 <= bps <= 10000 -> amt <> 0 -> 0 <= net <= value ->
  calc_add_liquidity_protocol_fees amt value net bps = Ok (r, x) ->
  x = in_tokens (protocol_part bps (value - net)) amt value /\ r = amt - x.
Proof.
  intros Hb Ha Hn. unfold calc_add_liquidity_protocol_fees. rewrite sat_sub_spec, Z.max_r, part_is by (auto; lia).
  cbn [bind]. intros H. apply bind_ok in H as (y & Hy & H). apply floor_was in Hy; [|exact Ha].
  apply bind_ok in H as (z & Hz & H). unfold checked_sub in Hz. destruct (y <=? amt); inversion Hz; subst.
  inversion H; subst. auto.
Qed.
Lemma add_fee_is bps amt value net : 0 <= bps <= 10000 -> 0 < amt <= U64_MAX -> 0 <= net <= value ->
  let fee := in_tokens (protocol_part bps (value - net)) amt value in
  calc_add_liquidity_protocol_fees amt value net bps = Ok (amt - fee, fee) /\ 0 <= fee <= amt.
Proof.
  intros Hb Ha Hn fee. unfold calc_add_liquidity_protocol_fees. rewrite sat_sub_spec, Z.max_r, part_is by (auto; lia).
  cbn [bind]. pose proof (part_bound bps (value - net) Hb ltac:(lia)) as Pb.
  assert (0 <= fee) by (apply in_tokens_nonneg; lia). assert (fee <= amt) by (apply in_tokens_le; lia).
  rewrite floor_is by (fold fee; lia). cbn [bind]. fold fee. unfold checked_sub.
  rewrite (proj2 (Z.leb_le _ _)) by lia. cbn [bind]. auto.
Qed.
Lemma remove_fee_was bps value net out x : 0 <= bps <= 10000 -> out <> 0 -> 0 <= net <= value ->
  calc_remove_liquidity_protocol_fees value net out bps = Ok x ->
  x = in_tokens (protocol_part bps (value - net)) out net.
Proof.
  intros Hb Ha Hn. unfold calc_remove_liquidity_protocol_fees. rewrite sat_sub_spec, Z.max_r, part_is by (auto; lia).
  cbn [bind]. apply floor_was. exact Ha.
Qed.
Lemma remove_fee_is bps value net out : 0 <= bps <= 10000 -> 0 < out -> 0 <= net <= value ->
  let fee := in_tokens (protocol_part bps (value - net)) out net in fee <= U64_MAX ->
  calc_remove_liquidity_protocol_fees value net out bps = Ok fee /\ 0 <= fee.
Proof.
  intros Hb Ha Hn fee Hm. unfold calc_remove_liquidity_protocol_fees. rewrite sat_sub_spec, Z.max_r, part_is by (auto; lia).
  cbn [bind]. pose proof (part_bound bps (value - net) Hb ltac:(lia)) as Pb.
  assert (0 <= fee) by (apply in_tokens_nonneg; lia). split; [|lia]. apply floor_is; lia.
Qed.
Lemma shares_was s t v x : calc_lp_tokens_to_mint s t v = Ok x -> x = shares_for s t v.
Proof.
  unfold calc_lp_tokens_to_mint, shares_for. destruct (Z.eqb_spec s 0).
  - unfold checked_add. destruct (_ <=? _); congruence.
  - destruct (Z.eqb_spec t 0); [congruence|]. unfold floor_apply.
    rewrite (proj2 (Z.eqb_neq s 0)), (proj2 (Z.eqb_neq t 0)) by assumption. cbn [orb]. cbv zeta.
    destruct (_ <=? _); congruence.
Qed.
Lemma shares_is s t v : shares_for s t v <= U64_MAX -> calc_lp_tokens_to_mint s t v = Ok (shares_for s t v).
Proof.
  unfold calc_lp_tokens_to_mint, shares_for. destruct (Z.eqb_spec s 0); intros H.
  - unfold checked_add. rewrite (proj2 (Z.leb_le _ _)) by lia. reflexivity.
  - destruct (Z.eqb_spec t 0); [reflexivity|]. unfold floor_apply.
    rewrite (proj2 (Z.eqb_neq s 0)), (proj2 (Z.eqb_neq t 0)) by assumption. cbn [orb]. cbv zeta.
    rewrite (proj2 (Z.leb_le _ _)) by lia. reflexivity.
Qed.
Lemma shares_nonneg s t v : 0 <= s -> 0 <= t -> 0 <= v -> 0 <= shares_for s t v.
Proof.
  intros. unfold shares_for. destruct (Z.eqb_spec s 0); [lia|]. destruct (Z.eqb_spec t 0); [lia|].
  apply Z.div_pos; nia.
Qed.
Lemma worth_was s t x v : calc_lp_tokens_sol_value s t x = Ok v -> v = worth_of s t x.
Proof.
  unfold calc_lp_tokens_sol_value, worth_of. destruct (Z.eqb_spec s 0); [rewrite orb_true_r; congruence|].
  rewrite orb_false_r. destruct (Z.eqb_spec t 0) as [->|]; [rewrite Z.mul_0_r, Z.div_0_l by lia; congruence|].
  unfold floor_apply. rewrite (proj2 (Z.eqb_neq s 0)), (proj2 (Z.eqb_neq t 0)) by assumption. cbn [orb]. cbv zeta.
  destruct (_ <=? _); congruence.
Qed.
Lemma worth_is s t x : 0 <= x <= s -> 0 <= t <= U64_MAX ->
  calc_lp_tokens_sol_value s t x = Ok (worth_of s t x) /\ 0 <= worth_of s t x.
Proof.
  intros Hx Ht. unfold calc_lp_tokens_sol_value, worth_of. destruct (Z.eqb_spec s 0); [rewrite orb_true_r; split; [reflexivity|lia]|].
  rewrite orb_false_r. destruct (Z.eqb_spec t 0) as [->|]; [rewrite Z.mul_0_r, Z.div_0_l by lia; split; [reflexivity|lia]|].
  unfold floor_apply. rewrite (proj2 (Z.eqb_neq s 0)), (proj2 (Z.eqb_neq t 0)) by assumption. cbn [orb]. cbv zeta.
  assert (x * t / s <= t) by (apply Z.div_le_upper_bound; nia).
  rewrite (proj2 (Z.leb_le _ _)) by lia. split; [reflexivity|]. apply Z.div_pos; nia.
Qed.

(* ------------------------------------------------------------------ *)
(** * Account groups *)
Lemma slice_to_here (a b : list Meta) n : Z.of_nat (length a) = n -> slice_to (a ++ b) n = Ok a.
Proof.
  intros <-. unfold slice_to. rewrite app_length. rewrite (proj2 (Z.leb_le _ _)) by lia.
  rewrite Nat2Z.id, firstn_app, Nat.sub_diag, firstn_all, firstn_O, app_nil_r. reflexivity.
Qed.
Lemma slice_from_here (a b : list Meta) n : Z.of_nat (length a) = n -> slice_from (a ++ b) n = Ok b.
Proof.
  intros <-. unfold slice_from. rewrite app_length. rewrite (proj2 (Z.leb_le _ _)) by lia.
  rewrite Nat2Z.id, skipn_app, Nat.sub_diag, skipn_all. reflexivity.
Qed.
Lemma calc_cpi_can w L l ls i p more : w_list w L = Some l -> nth_lst l i = Some ls ->
  mk p = sol_value_calculator ls -> verify_lst_sol_val_calc_cpi w L (p :: more) i = Ok (mkCpi p more).
Proof.
  intros Hl Hn Hp. unfold verify_lst_sol_val_calc_cpi, cpi_from_suffix, try_lst_state_list. rewrite Hl. cbn [bind of_option].
  rewrite Hn. cbn [bind of_option cpi_prog]. rewrite Hp, Z.eqb_refl. reflexivity.
Qed.
Lemma pricing_cpi_can w P ps p more : w_pool w P = Some ps -> mk p = pricing_program ps ->
  verify_pricing_cpi w P (p :: more) = Ok (mkCpi p more).
Proof.
  intros Hp Hm. unfold verify_pricing_cpi, cpi_from_suffix, try_pool_state. rewrite Hp. cbn [bind of_option cpi_prog].
  rewrite Hm, Z.eqb_refl. reflexivity.
Qed.
Lemma two_cpis_can w L l s d n i j p1 ms p2 md : w_list w L = Some l -> nth_lst l i = Some s -> nth_lst l j = Some d ->
  mk p1 = sol_value_calculator s -> mk p2 = sol_value_calculator d -> Z.of_nat (length (p1 :: ms)) = n ->
  verify_src_dst_lst_sol_val_calc_cpis w L ((p1 :: ms) ++ (p2 :: md)) n i j = Ok (mkCpi p1 ms, mkCpi p2 md).
Proof.
  intros Hl Hs Hd H1 H2 Hn. unfold verify_src_dst_lst_sol_val_calc_cpis.
  rewrite slice_to_here by exact Hn. cbn [bind]. rewrite (calc_cpi_can w L l s i p1 ms Hl Hs H1). cbn [bind].
  rewrite slice_from_here by exact Hn. cbn [bind]. rewrite (calc_cpi_can w L l d j p2 md Hl Hd H2). reflexivity.
Qed.
Lemma swap_cpis_can w L P l ps s d n m i j p1 ms p2 md p3 mp : w_list w L = Some l -> w_pool w P = Some ps ->
  nth_lst l i = Some s -> nth_lst l j = Some d ->
  mk p1 = sol_value_calculator s -> mk p2 = sol_value_calculator d -> mk p3 = pricing_program ps ->
  Z.of_nat (length (p1 :: ms)) = n -> Z.of_nat (length (p2 :: md)) = m ->
  verify_swap_cpis w L P ((p1 :: ms) ++ (p2 :: md) ++ (p3 :: mp)) n m i j =
    Ok (mkCpi p1 ms, mkCpi p2 md, mkCpi p3 mp).
Proof.
  intros Hl Hp Hs Hd H1 H2 H3 Hn Hm. unfold verify_swap_cpis. cbv zeta. rewrite app_assoc.
  assert (Hlen : Z.of_nat (length ((p1 :: ms) ++ (p2 :: md))) = n + m) by (rewrite app_length; lia).
  rewrite slice_to_here by exact Hlen. cbn [bind].
  rewrite (two_cpis_can w L l s d n i j p1 ms p2 md) by assumption. cbn [bind].
  rewrite slice_from_here by exact Hlen. cbn [bind]. rewrite (pricing_cpi_can w P ps p3 mp Hp H3). reflexivity.
Qed.
Lemma lp_cpis_can w L P l ps ls n i p1 ms p3 mp : w_list w L = Some l -> w_pool w P = Some ps ->
  nth_lst l i = Some ls -> mk p1 = sol_value_calculator ls -> mk p3 = pricing_program ps ->
  Z.of_nat (length (p1 :: ms)) = n ->
  verify_lp_cpis w L P ((p1 :: ms) ++ (p3 :: mp)) n i = Ok (mkCpi p1 ms, mkCpi p3 mp).
Proof.
  intros Hl Hp Hs H1 H3 Hn. unfold verify_lp_cpis.
  rewrite slice_to_here by exact Hn. cbn [bind]. rewrite (calc_cpi_can w L l ls i p1 ms Hl Hs H1). cbn [bind].
  rewrite slice_from_here by exact Hn. cbn [bind]. rewrite (pricing_cpi_can w P ps p3 mp Hp H3). reflexivity.
Qed.

Section WithDerive.
Variable D : Derive.
Hypothesis HD : derive_ok D.
Variable E : Env.
Variable C : Ctx.
Variable w : World.
Hypothesis HR : reachable D w.

Lemma start_within ps l : the_pool w = Some ps -> the_list w = Some l ->
  within ps l w w /\ 0 <= trading_protocol_fee_bps ps <= 10000 /\ 0 <= lp_protocol_fee_bps ps <= 10000.
Proof.
  intros Hp Hl. destruct (reachable_inv D HD w HR) as ((l0 & au & Hl0 & _ & _ & _ & F & U & P) & _).
  assert (l0 = l) by congruence. subst l0. rewrite Hp in P. destruct P as ((T & B1 & B2 & _) & Hs).
  split; [|auto]. constructor; auto.
  - exists ps, l. repeat (split; [first [assumption|reflexivity|idtac]|]); auto.
    eapply Forall_impl; [|exact F]. intros x Hx. unfold lst_ok, U64 in Hx. tauto.
    apply like_list_refl.
  - eauto.
Qed.

(** What holds of a listed entry's accounts. *)
Lemma entry_here l n ls : the_list w = Some l -> nth_error l n = Some ls ->
  is_token_program (w_owner w (ls_mint ls)) = true /\ w_mint w (ls_mint ls) <> None /\
  d_create D POOL_STATE_ID (w_owner w (ls_mint ls)) (ls_mint ls) (pool_reserves_bump ls) =
    Some (reserves_key D w (ls_mint ls)) /\
  d_create D PROTOCOL_FEE_ID (w_owner w (ls_mint ls)) (ls_mint ls) (protocol_fee_accumulator_bump ls) =
    Some (accumulator_key D w (ls_mint ls)) /\
  w_tok w (reserves_key D w (ls_mint ls)) <> None.
Proof.
  intros Hl Hn.
  destruct (C39_listed_accounts_exist D w l ls HD HR Hl (nth_error_In _ _ Hn))
    as (Tp & Mm & r & f & tr & tf & Fr & Cr & Ff & Cf & Hr & _ & _ & _ & Hf & _).
  unfold reserves_key, accumulator_key. rewrite Fr, Ff. cbn [fst]. repeat split; auto. congruence.
Qed.
Lemma lp_here ps : the_pool w = Some ps -> w_owner w (lp_token_mint ps) = SPL_TOKEN_ID /\
  exists mi, w_mint w (lp_token_mint ps) = Some mi /\ m_auth mi = Some POOL_STATE_ID.
Proof. intros Hp. destruct (reachable_ata D HD w HR) as (_ & _ & H). exact (H ps Hp). Qed.


(** ** Swaps *)
Section Swap.
Variables (ps : PoolState) (l : list LstState) (s d : LstState) (i j : Z).
Hypothesis Hp : the_pool w = Some ps.
Hypothesis Hl : the_list w = Some l.
Hypothesis Hi : 0 <= i.
Hypothesis Hj : 0 <= j.
Hypothesis Hs : nth_error l (Z.to_nat i) = Some s.
Hypothesis Hd : nth_error l (Z.to_nat j) = Some d.
Variable A : SwapAccounts.
Variables cs cd : Cpi.
Hypothesis Acs : mk (cpi_prog cs) = sol_value_calculator s.
Hypothesis Acd : mk (cpi_prog cd) = sol_value_calculator d.
Hypothesis Asrc : mk (sa_src_lst_mint A) = ls_mint s.
Hypothesis Adst : mk (sa_dst_lst_mint A) = ls_mint d.
Hypothesis Apool : mk (sa_pool_state A) = POOL_STATE_ID.
Hypothesis Alist : mk (sa_lst_state_list A) = LST_STATE_LIST_ID.
Hypothesis Afee : mk (sa_protocol_fee_accumulator A) = accumulator_key D w (ls_mint d).
Hypothesis Apsrc : mk (sa_src_lst_token_program A) = w_owner w (ls_mint s).
Hypothesis Apdst : mk (sa_dst_lst_token_program A) = w_owner w (ls_mint d).
Hypothesis Arsrc : mk (sa_src_pool_reserves A) = reserves_key D w (ls_mint s).
Hypothesis Ardst : mk (sa_dst_pool_reserves A) = reserves_key D w (ls_mint d).
Hypothesis Asig : is_signer (sa_signer A) = true.

Lemma src_measured x x' : within ps l w x ->
  sync_src E x A cs i = Ok x' <-> measured D E x i (cpi_accs cs) x'.
Proof.
  intros W. unfold sync_src. rewrite Apool, Alist, Arsrc, Asrc.
  destruct (entry_here l _ s Hl Hs) as (_ & _ & _ & _ & T).
  apply (sync_measured D E ps l w x i _ cs _ s x' W Hi Hs eq_refl T Acs eq_refl).
Qed.
Lemma dst_measured x x' : within ps l w x ->
  sync_dst E x A cd j = Ok x' <-> measured D E x j (cpi_accs cd) x'.
Proof.
  intros W. unfold sync_dst. rewrite Apool, Alist, Ardst, Adst.
  destruct (entry_here l _ d Hl Hd) as (_ & _ & _ & _ & T).
  apply (sync_measured D E ps l w x j _ cd _ d x' W Hj Hd eq_refl T Acd eq_refl).
Qed.
Lemma within_mint x m : within ps l w x -> w_mint w m <> None -> w_mint x m <> None.
Proof.
  intros W H. destruct (w_mint w m) as [mi|] eqn:Em; [|congruence].
  destruct (wi_mint _ _ _ _ W _ _ Em) as (i' & Hi' & _). congruence.
Qed.
Lemma within_key x m : within ps l w x -> reserves_key D x m = reserves_key D w m.
Proof. intros W. unfold reserves_key. rewrite (wi_owner _ _ _ _ W). reflexivity. Qed.
Lemma within_acc x m : within ps l w x -> accumulator_key D x m = accumulator_key D w m.
Proof. intros W. unfold accumulator_key. rewrite (wi_owner _ _ _ _ W). reflexivity. Qed.
Lemma within_total x ps' : within ps l w x -> the_pool x = Some ps' -> total x = total_sol_value ps'.
Proof. intros W H. unfold total. rewrite H. reflexivity. Qed.

Lemma src_paid x x' from to owner amt : within ps l w x ->
  transfer_checked x (w_owner w (ls_mint s)) from to (ls_mint s) owner true amt = Ok x' <->
  paid x (ls_mint s) from to owner amt x'.
Proof.
  intros W. destruct (entry_here l _ s Hl Hs) as (Tp & Mm & _).
  apply transfer_paid; rewrite ?(wi_owner _ _ _ _ W); auto. exact (within_mint x _ W Mm).
Qed.
Lemma dst_paid x x' from to owner amt : within ps l w x ->
  transfer_checked x (w_owner w (ls_mint d)) from to (ls_mint d) owner true amt = Ok x' <->
  paid x (ls_mint d) from to owner amt x'.
Proof.
  intros W. destruct (entry_here l _ d Hl Hd) as (Tp & Mm & _).
  apply transfer_paid; rewrite ?(wi_owner _ _ _ _ W); auto. exact (within_mint x _ W Mm).
Qed.

Lemma settle_settled x pay out fee x' ps2 : within ps l w x -> the_pool x = Some ps2 ->
  0 <= pay -> 0 <= out -> 0 <= fee ->
  swap_settle E x A cs cd i j (total_sol_value ps2) pay out fee = Ok x' <->
  swap_settled D E x i j (ls_mint s) (ls_mint d) (mk (sa_signer A)) (mk (sa_src_lst_acc A)) (mk (sa_dst_lst_acc A))
    (cpi_accs cs) (cpi_accs cd) pay out fee x'.
Proof.
  intros W Hp2 P1 P2 P3. unfold swap_settled. rewrite !(within_key x _ W), (within_acc x _ W).
  rewrite (within_total x ps2 W Hp2).
  destruct (entry_here l _ d Hl Hd) as (_ & _ & _ & _ & T). apply (wi_tok _ _ _ _ W) in T.
  destruct (w_tok x (reserves_key D w (ls_mint d))) as [td|] eqn:Htd; [clear T|congruence].
  assert (Hb : balance x (reserves_key D w (ls_mint d)) = ta_amount td) by (unfold balance; rewrite Htd; reflexivity).
  pose proof (proj1 (wi_u64 _ _ _ _ W) _ _ Htd) as Ub.
  split.
  - intros H. apply settle_inv in H.
    destruct H as (x1 & x2 & x3 & x4 & ps' & t & Ht & Hle & _ & H1 & H2 & H3 & H4 & H5 & H6 & H7).
    rewrite Apool, Ardst, Arsrc, Asrc, Adst, Afee, Apsrc, Apdst, Asig in *.
    assert (t = td) by congruence. subst t.
    exists x1, x2, x3, x4. rewrite Hb. split; [exact Hle|].
    apply src_paid in H1; [|exact W]. pose proof (paid_within _ _ _ _ _ _ _ _ _ _ W P1 H1) as W1.
    apply dst_paid in H2; [|exact W1]. pose proof (paid_within _ _ _ _ _ _ _ _ _ _ W1 P3 H2) as W2.
    apply dst_paid in H3; [|exact W2]. pose proof (paid_within _ _ _ _ _ _ _ _ _ _ W2 P2 H3) as W3.
    apply src_measured in H4; [|exact W3]. pose proof (measured_within _ _ _ _ _ _ _ _ _ W3 H4) as W4.
    apply dst_measured in H5; [|exact W4].
    repeat (split; [assumption|]). unfold total, the_pool. rewrite H6. exact H7.
  - intros (x1 & x2 & x3 & x4 & Hle & H1 & H2 & H3 & H4 & H5 & H6). rewrite Hb in Hle.
    pose proof (paid_within _ _ _ _ _ _ _ _ _ _ W P1 H1) as W1.
    pose proof (paid_within _ _ _ _ _ _ _ _ _ _ W1 P3 H2) as W2.
    pose proof (paid_within _ _ _ _ _ _ _ _ _ _ W2 P2 H3) as W3.
    pose proof (measured_within _ _ _ _ _ _ _ _ _ W3 H4) as W4.
    pose proof (measured_within _ _ _ _ _ _ _ _ _ W4 H5) as W5.
    apply src_paid in H1; [|exact W]. apply dst_paid in H2; [|exact W1]. apply dst_paid in H3; [|exact W2].
    apply src_measured in H4; [|exact W3]. apply dst_measured in H5; [|exact W4].
    unfold swap_settle, checked_add, token_account_balance, pool_field, try_pool_state. rewrite (proj2 (Z.leb_le _ _)) by (unfold U64 in Ub; lia). cbn [bind].
    rewrite Apool, Ardst, Arsrc, Asrc, Adst, Afee, Apsrc, Apdst, Asig.
    rewrite Htd. cbn [of_option bind]. rewrite (proj2 (Z.leb_le _ _)) by exact Hle. cbn [guard].
    rewrite H1. cbn [bind]. rewrite H2. cbn [bind]. rewrite H3. cbn [bind]. rewrite H4. cbn [bind]. rewrite H5. cbn [bind].
    destruct (wi_pool _ _ _ _ W5) as (ps5 & l5 & Hp5 & _). unfold the_pool in Hp5. rewrite Hp5. cbn [of_option bind].
    unfold total, the_pool in H6. rewrite Hp5 in H6. rewrite (proj2 (Z.leb_le _ _)) by exact H6. reflexivity.
Qed.
End Swap.

(** What a verified swap call hands to its body. *)
Record swap_call (s d : LstState) (ps : PoolState) (who from to : key) (ms md mp : list Meta)
  (A : SwapAccounts) (cs cd cp : Cpi) : Prop := {
  sc_cs : mk (cpi_prog cs) = sol_value_calculator s; sc_ms : cpi_accs cs = ms;
  sc_cd : mk (cpi_prog cd) = sol_value_calculator d; sc_md : cpi_accs cd = md;
  sc_cp : mk (cpi_prog cp) = pricing_program ps; sc_mp : cpi_accs cp = mp;
  sc_who : mk (sa_signer A) = who; sc_from : mk (sa_src_lst_acc A) = from; sc_to : mk (sa_dst_lst_acc A) = to;
  sc_src : mk (sa_src_lst_mint A) = ls_mint s; sc_dst : mk (sa_dst_lst_mint A) = ls_mint d;
  sc_pool : mk (sa_pool_state A) = POOL_STATE_ID; sc_list : mk (sa_lst_state_list A) = LST_STATE_LIST_ID;
  sc_fee : mk (sa_protocol_fee_accumulator A) = accumulator_key D w (ls_mint d);
  sc_psrc : mk (sa_src_lst_token_program A) = w_owner w (ls_mint s);
  sc_pdst : mk (sa_dst_lst_token_program A) = w_owner w (ls_mint d);
  sc_rsrc : mk (sa_src_pool_reserves A) = reserves_key D w (ls_mint s);
  sc_rdst : mk (sa_dst_pool_reserves A) = reserves_key D w (ls_mint d);
  sc_sig : is_signer (sa_signer A) = true }.

Lemma verify_swap_can ps l s d n m i j who from to accs more ms md mp :
  the_pool w = Some ps -> the_list w = Some l -> running ps ->
  nth_error l (Z.to_nat i) = Some s -> nth_error l (Z.to_nat j) = Some d -> ls_mint s <> ls_mint d ->
  is_input_disabled s = 0 -> swap_groups more n m ps s d ms md mp ->
  passes accs (swap_asks D w (ls_mint s) (ls_mint d) who from to) more ->
  exists A cs cd cp, verify_swap D w accs n m i j = Ok (A, (cs, cd, cp)) /\
    swap_call s d ps who from to ms md mp A cs cd cp.
Proof.
  intros Hp Hl Hrun Hs Hd Hne Hin (gs & gd & gp & -> & Ln & Lm & (p1 & -> & K1) & (p2 & -> & K2) & (p3 & -> & K3)) HP.
  destruct (entry_here l _ s Hl Hs) as (_ & _ & Rs & _ & _).
  destruct (entry_here l _ d Hl Hd) as (_ & _ & Rd & Fd & _).
  unfold swap_asks in HP. unfold the_pool, the_list in *. take.
  unfold verify_swap, resolve_swap, try_match_lst_mint_on_list, create_pool_reserves_address, create_protocol_fee_accumulator_address.
  change (w_list w LST_STATE_LIST_ID = Some l) in Hl.
  drive. rewrite Hs, Hd. drive. rewrite Rs, Rd, Fd. drive. unfold verify_swap_not_same_lst.
  rewrite (proj2 (Z.eqb_neq _ _)) by exact Hne. cbn [negb guard bind]. on_ ps.
  unfold verify_lst_input_not_disabled, u8bool_is_true, u8bool_is_false. rewrite Hin.
  cbn [Z.eqb negb guard bind].
  change (p1 :: ms ++ p2 :: md ++ p3 :: mp) with ((p1 :: ms) ++ (p2 :: md) ++ (p3 :: mp)).
  rewrite (swap_cpis_can w LST_STATE_LIST_ID POOL_STATE_ID l ps s d _ _ i j p1 ms p2 md p3 mp) by (assumption || reflexivity).
  cbn [bind]. do 4 eexists. split; [reflexivity|].
  constructor; cbn [cpi_prog cpi_accs sa_signer sa_src_lst_mint sa_dst_lst_mint sa_src_lst_acc
    sa_dst_lst_acc sa_protocol_fee_accumulator sa_src_lst_token_program sa_dst_lst_token_program
    sa_pool_state sa_lst_state_list sa_src_pool_reserves sa_dst_pool_reserves]; assumption || reflexivity.
Qed.

Lemma swap_facts_call accs n m i j A cs cd cp ps l s d : 0 <= n -> 0 <= m ->
  swap_facts D w accs n m i j A cs cd cp ps l s d ->
  the_pool w = Some ps /\ running ps /\ the_list w = Some l /\
  nth_error l (Z.to_nat i) = Some s /\ nth_error l (Z.to_nat j) = Some d /\ ls_mint s <> ls_mint d /\
  is_input_disabled s = 0 /\
  exists more, swap_groups more n m ps s d (cpi_accs cs) (cpi_accs cd) (cpi_accs cp) /\
    passes accs (swap_asks D w (ls_mint s) (ls_mint d) (mk (sa_signer A)) (mk (sa_src_lst_acc A)) (mk (sa_dst_lst_acc A))) more /\
    swap_call s d ps (mk (sa_signer A)) (mk (sa_src_lst_acc A)) (mk (sa_dst_lst_acc A))
      (cpi_accs cs) (cpi_accs cd) (cpi_accs cp) A cs cd cp.
Proof.
  intros Pn Pm (-> & Ln & Lm & Sg & Wr & Kp & Kl & Ks & Kd & Hne & Hp & Hrun & Hl & Hs & Hd & Ms & Md & Hin & Rs & Rd & Fd & Cs & Cd & Cp).
  unfold nth_lst in *.
  destruct (entry_here l _ s Hl Hs) as (_ & _ & Rs' & _ & _).
  destruct (entry_here l _ d Hl Hd) as (_ & _ & Rd' & Fd' & _).
  rewrite Ms in Rs'. rewrite Md in Rd', Fd'.
  assert (X1 : mk (sa_src_pool_reserves A) = reserves_key D w (mk (sa_src_lst_mint A))) by congruence.
  assert (X2 : mk (sa_dst_pool_reserves A) = reserves_key D w (mk (sa_dst_lst_mint A))) by congruence.
  assert (X3 : mk (sa_protocol_fee_accumulator A) = accumulator_key D w (mk (sa_dst_lst_mint A))) by congruence.
  repeat (split; [assumption || congruence|]).
  exists ((cpi_prog cs :: cpi_accs cs) ++ (cpi_prog cd :: cpi_accs cd) ++ (cpi_prog cp :: cpi_accs cp)).
  cbn [forallb] in Wr. repeat (apply andb_true_iff in Wr as (? & Wr)).
  split; [|split].
  - do 3 eexists. split; [reflexivity|]. split; [lia|]. split; [lia|].
    split; [eexists; split; [reflexivity|assumption]|]. split; [eexists; split; [reflexivity|assumption]|].
    eexists; split; [reflexivity|assumption].
  - unfold swap_asks. rewrite Ms, Md. eexists. split; [reflexivity|].
    repeat (apply Forall2_cons || apply Forall2_nil); (split; [cbn; congruence|split; cbn; intros; congruence]).
  - rewrite <- Ms, <- Md in *. constructor; auto; congruence.
Qed.

Lemma u8_nonneg n : u8b n = true -> 0 <= n.
Proof. unfold u8b. intros H. apply andb_true_iff in H as (H & _). now apply Z.leb_le in H. Qed.
Lemma u32_nonneg n : u32b n = true -> 0 <= n.
Proof. unfold u32b. intros H. apply andb_true_iff in H as (H & _). now apply Z.leb_le in H. Qed.
Lemma u64_range n : u64b n = true -> 0 <= n <= U64_MAX.
Proof. intros H. now apply U64_spec in H. Qed.

Ltac wf H := cbn [ix_wfb si_src_lst_value_calc_accs si_dst_lst_value_calc_accs si_src_lst_index si_dst_lst_index
    si_min_amount_out si_amount so_src_lst_value_calc_accs so_dst_lst_value_calc_accs so_src_lst_index so_dst_lst_index
    so_max_amount_in so_amount al_lst_value_calc_accs al_lst_index al_lst_amount al_min_lp_out
    rl_lst_value_calc_accs rl_lst_index rl_lp_token_amount rl_min_lst_out sr_src_lst_calc_accs sr_src_lst_index
    sr_dst_lst_index sr_amount sr_min_starting_src_lst sr_max_starting_dst_lst] in H;
  repeat match goal with Q : _ && _ = true |- _ => apply andb_true_iff in Q; destruct Q end;
  repeat match goal with
  | Q : u8b _ = true |- _ => apply u8_nonneg in Q
  | Q : u32b _ = true |- _ => apply u32_nonneg in Q
  | Q : u64b _ = true |- _ => apply u64_range in Q end.

Lemma settle_back x A cs cd i j st pay out fee x' :
  settle_facts E x x' A cs cd i j st pay out fee -> swap_settle E x A cs cd i j st pay out fee = Ok x'.
Proof.
  intros (y1 & y2 & y3 & y4 & ps' & t & Q1 & Q2 & Q3 & Q4 & Q5 & Q6 & Q7 & Q8 & Q9 & Q10).
  unfold swap_settle, checked_add, token_account_balance, pool_field, try_pool_state.
  rewrite (proj2 (Z.leb_le _ _)) by exact Q3. cbn [bind]. rewrite Q1. cbn [of_option bind].
  rewrite (proj2 (Z.leb_le _ _)) by exact Q2. cbn [guard]. rewrite Q4. cbn [bind]. rewrite Q5. cbn [bind]. rewrite Q6. cbn [bind].
  rewrite Q7. cbn [bind]. rewrite Q8. cbn [bind]. rewrite Q9. cbn [of_option bind]. rewrite (proj2 (Z.leb_le _ _)) by exact Q10. reflexivity.
Qed.

Lemma swap_in_sound a accs w' : ix_wfb (SwapExactIn a) = true -> process_swap_exact_in D E w accs a = Ok w' ->
  exists asked more, passes accs asked more /\ trade_rule D E C w (SwapExactIn a) asked more w'.
Proof.
  intros Hwf H. apply swap_exact_in_inv in H; [|exact Hwf].
  destruct H as (A & cs & cd & cp & ps & l & s & d & w1 & w2 & ps2 & in_sol & in_hi & out_sol & out & out_hi & fee &
    F & Hz & S1 & S2 & P2 & I1 & Hz1 & I2 & I3 & Hmin & Hz2 & Hfee & Hset).
  destruct a as [n m i j min amount]. wf Hwf. cbn [si_src_lst_value_calc_accs si_dst_lst_value_calc_accs si_src_lst_index si_dst_lst_index
    si_min_amount_out si_amount] in *.
  apply swap_facts_call in F; [|assumption|assumption].
  destruct F as (Hp & Hrun & Hl & Hs & Hd & Hne & Hin & more & Hg & HP & []).
  destruct (start_within ps l Hp Hl) as (W & B1 & _).
  apply (src_measured ps l s i Hl) in S1; auto. pose proof (measured_within _ _ _ _ _ _ _ _ _ W S1) as W1.
  apply (dst_measured ps l d j Hl) in S2; auto. pose proof (measured_within _ _ _ _ _ _ _ _ _ W1 S2) as W2.
  unfold invoke_lst_to_sol, invoke_price_exact_in, invoke_sol_to_lst in *.
  apply decode_range_ok in I1 as (I1 & U1 & U2). apply decode_u64_ok in I2 as (I2 & U3). apply decode_range_ok in I3 as (I3 & U4 & U5).
  destruct (wi_pool _ _ _ _ W2) as (ps2' & l2 & P2' & _ & _ & _ & _ & _ & _ & _ & Ft & _).
  assert (ps2' = ps2) by (unfold the_pool in P2'; congruence). subst ps2'.
  assert (Bf : 0 <= fee). { apply calc_swap_fees_ok in Hfee; [tauto|apply U1|apply U3|apply U4|lia]. }
  rewrite Ft in Hfee. apply swap_fee_was in Hfee; [|assumption|assumption].
  apply settle_back in Hset. rename Hset into Hst.
  apply (settle_settled ps l s d i j Hl) in Hst; auto; [|lia|apply U4].
  rewrite sc_src0, sc_dst0, sc_cs0, sc_cd0, sc_cp0 in *.
  do 2 eexists. split; [exact HP|].
  rewrite Hfee in Hst.
  eapply may_swap_exact_in; eassumption.
Qed.

Lemma swap_in_complete a accs asked more w' : ix_wfb (SwapExactIn a) = true -> passes accs asked more ->
  trade_rule D E C w (SwapExactIn a) asked more w' -> process_swap_exact_in D E w accs a = Ok w'.
Proof.
  intros Hwf HP H. inversion H; subst; clear H. wf Hwf.
  match goal with Q : nth_error _ (Z.to_nat i) = Some _ |- _ => rename Q into Hs end.
  match goal with Q : nth_error _ (Z.to_nat j) = Some _ |- _ => rename Q into Hd end.
  match goal with Q : the_pool w = Some ps |- _ => rename Q into Hp end.
  match goal with Q : the_list w = Some l |- _ => rename Q into Hl end.
  match goal with Q : measured D E w i ms w1 |- _ => rename Q into S1 end.
  match goal with Q : measured D E w1 j md w2 |- _ => rename Q into S2 end.
  match goal with Q : swap_settled _ _ _ _ _ _ _ _ _ _ _ _ _ _ _ _ |- _ => rename Q into Hst end.
  destruct (verify_swap_can ps l s d n m i j who from to accs more ms md mp) as (A & cs & cd & cp & HV & []); auto.
  destruct (start_within ps l Hp Hl) as (W & B1 & _).
  pose proof (measured_within _ _ _ _ _ _ _ _ _ W S1) as W1.
  pose proof (measured_within _ _ _ _ _ _ _ _ _ W1 S2) as W2.
  destruct (wi_pool _ _ _ _ W2) as (ps2 & l2 & P2 & _ & _ & _ & _ & _ & _ & _ & Ft & _).
  subst ms md mp who from to.
  apply (src_measured ps l s i Hl) with (A := A) (cs := cs) in S1; auto.
  apply (dst_measured ps l d j Hl) with (A := A) (cd := cd) in S2; auto.
  assert (Hfee : swap_fee (trading_protocol_fee_bps ps) in_sol out_sol out <= U64_MAX).
  { destruct Hst as (y1 & _ & _ & _ & Hle & _). destruct (entry_here l _ d Hl Hd) as (_ & _ & _ & _ & T).
    apply (wi_tok _ _ _ _ W2) in T. unfold reserves_key in *. rewrite (wi_owner _ _ _ _ W2) in Hle. unfold balance in Hle.
    destruct (w_tok w2 _) as [t|] eqn:Ht; [|congruence]. pose proof (proj1 (wi_u64 _ _ _ _ W2) _ _ Ht) as Ut.
    unfold U64 in *. lia. }
  destruct (swap_fee_is (trading_protocol_fee_bps ps) in_sol out_sol out) as (Fe & Fn); auto; try (unfold U64 in *; lia).
  apply (settle_settled ps l s d i j Hl) with (A := A) (ps2 := ps2) in Hst; auto; [|lia|unfold U64 in *; lia].
  unfold process_swap_exact_in. cbn [si_src_lst_value_calc_accs si_dst_lst_value_calc_accs si_src_lst_index si_dst_lst_index
    si_min_amount_out si_amount].
  rewrite (proj2 (Z.eqb_neq amount 0)) by assumption. cbn [negb guard]. rewrite HV. cbn [bind].
  rewrite S1. cbn [bind]. rewrite S2. cbn [bind]. unfold pool_field, try_pool_state. rewrite sc_pool0.
  unfold the_pool in P2. rewrite P2. cbn [of_option bind].
  unfold invoke_lst_to_sol, invoke_price_exact_in, invoke_sol_to_lst. rewrite sc_src0, sc_dst0, sc_cs0, sc_cd0, sc_cp0.
  rewrite (proj2 (decode_range_ok _ in_sol in_hi)) by auto. cbn [bind].
  rewrite (proj2 (Z.eqb_neq in_sol 0)) by assumption. cbn [negb guard].
  rewrite (proj2 (decode_u64_ok _ out_sol)) by auto. cbn [bind].
  rewrite (proj2 (decode_range_ok _ out out_hi)) by auto. cbn [bind].
  rewrite (proj2 (Z.leb_le _ _)) by assumption. cbn [guard].
  rewrite (proj2 (Z.eqb_neq out 0)) by assumption. cbn [negb guard].
  rewrite Ft, Fe. cbn [bind]. exact Hst.
Qed.

Lemma swap_out_sound a accs w' : ix_wfb (SwapExactOut a) = true -> process_swap_exact_out D E w accs a = Ok w' ->
  exists asked more, passes accs asked more /\ trade_rule D E C w (SwapExactOut a) asked more w'.
Proof.
  intros Hwf H. apply swap_exact_out_inv in H; [|exact Hwf].
  destruct H as (A & cs & cd & cp & ps & l & s & d & w1 & w2 & ps2 & out_lo & out_sol & in_sol & pay_lo & pay & fee &
    F & Hz & Hzm & S1 & S2 & P2 & I1 & Hz1 & I2 & I3 & Hmin & Hz2 & Hfee & Hset).
  destruct a as [n m i j max amount]. wf Hwf. cbn [so_src_lst_value_calc_accs so_dst_lst_value_calc_accs so_src_lst_index so_dst_lst_index
    so_max_amount_in so_amount] in *.
  apply swap_facts_call in F; [|assumption|assumption].
  destruct F as (Hp & Hrun & Hl & Hs & Hd & Hne & Hin & more & Hg & HP & []).
  destruct (start_within ps l Hp Hl) as (W & B1 & _).
  apply (src_measured ps l s i Hl) in S1; auto. pose proof (measured_within _ _ _ _ _ _ _ _ _ W S1) as W1.
  apply (dst_measured ps l d j Hl) in S2; auto. pose proof (measured_within _ _ _ _ _ _ _ _ _ W1 S2) as W2.
  unfold invoke_lst_to_sol, invoke_price_exact_out, invoke_sol_to_lst in *.
  apply decode_range_ok in I1 as (I1 & U1 & U2). apply decode_u64_ok in I2 as (I2 & U3). apply decode_range_ok in I3 as (I3 & U4 & U5).
  destruct (wi_pool _ _ _ _ W2) as (ps2' & l2 & P2' & _ & _ & _ & _ & _ & _ & _ & Ft & _).
  assert (ps2' = ps2) by (unfold the_pool in P2'; congruence). subst ps2'.
  assert (Bf : 0 <= fee). { apply calc_swap_fees_ok in Hfee; [tauto|apply U3|apply U2|lia|lia]. }
  rewrite Ft in Hfee. apply swap_fee_was in Hfee; [|assumption|assumption].
  apply settle_back in Hset. rename Hset into Hst.
  apply (settle_settled ps l s d i j Hl) in Hst; auto; [|apply U5|lia].
  rewrite sc_src0, sc_dst0, sc_cs0, sc_cd0, sc_cp0 in *.
  do 2 eexists. split; [exact HP|].
  rewrite Hfee in Hst.
  eapply may_swap_exact_out; eassumption.
Qed.

Lemma swap_out_complete a accs asked more w' : ix_wfb (SwapExactOut a) = true -> passes accs asked more ->
  trade_rule D E C w (SwapExactOut a) asked more w' -> process_swap_exact_out D E w accs a = Ok w'.
Proof.
  intros Hwf HP H. inversion H; subst; clear H. wf Hwf.
  match goal with Q : nth_error _ (Z.to_nat i) = Some _ |- _ => rename Q into Hs end.
  match goal with Q : nth_error _ (Z.to_nat j) = Some _ |- _ => rename Q into Hd end.
  match goal with Q : the_pool w = Some ps |- _ => rename Q into Hp end.
  match goal with Q : the_list w = Some l |- _ => rename Q into Hl end.
  match goal with Q : measured D E w i ms w1 |- _ => rename Q into S1 end.
  match goal with Q : measured D E w1 j md w2 |- _ => rename Q into S2 end.
  match goal with Q : swap_settled _ _ _ _ _ _ _ _ _ _ _ _ _ _ _ _ |- _ => rename Q into Hst end.
  destruct (verify_swap_can ps l s d n m i j who from to accs more ms md mp) as (A & cs & cd & cp & HV & []); auto.
  destruct (start_within ps l Hp Hl) as (W & B1 & _).
  pose proof (measured_within _ _ _ _ _ _ _ _ _ W S1) as W1.
  pose proof (measured_within _ _ _ _ _ _ _ _ _ W1 S2) as W2.
  destruct (wi_pool _ _ _ _ W2) as (ps2 & l2 & P2 & _ & _ & _ & _ & _ & _ & _ & Ft & _).
  subst ms md mp who from to.
  apply (src_measured ps l s i Hl) with (A := A) (cs := cs) in S1; auto.
  apply (dst_measured ps l d j Hl) with (A := A) (cd := cd) in S2; auto.
  assert (Hfee : swap_fee (trading_protocol_fee_bps ps) in_sol out_sol amount <= U64_MAX).
  { destruct Hst as (y1 & _ & _ & _ & Hle & _). destruct (entry_here l _ d Hl Hd) as (_ & _ & _ & _ & T).
    apply (wi_tok _ _ _ _ W2) in T. unfold reserves_key in *. rewrite (wi_owner _ _ _ _ W2) in Hle. unfold balance in Hle.
    destruct (w_tok w2 _) as [t|] eqn:Ht; [|congruence]. pose proof (proj1 (wi_u64 _ _ _ _ W2) _ _ Ht) as Ut.
    unfold U64 in *. lia. }
  destruct (swap_fee_is (trading_protocol_fee_bps ps) in_sol out_sol amount) as (Fe & Fn); auto; try (unfold U64 in *; lia).
  apply (settle_settled ps l s d i j Hl) with (A := A) (ps2 := ps2) in Hst; auto; [|unfold U64 in *; lia|lia].
  unfold process_swap_exact_out. cbn [so_src_lst_value_calc_accs so_dst_lst_value_calc_accs so_src_lst_index so_dst_lst_index
    so_max_amount_in so_amount].
  rewrite (proj2 (Z.eqb_neq amount 0)) by assumption. rewrite (proj2 (Z.eqb_neq max 0)) by assumption.
  cbn [negb orb guard]. rewrite HV. cbn [bind].
  rewrite S1. cbn [bind]. rewrite S2. cbn [bind]. unfold pool_field, try_pool_state. rewrite sc_pool0.
  unfold the_pool in P2. rewrite P2. cbn [of_option bind].
  unfold invoke_lst_to_sol, invoke_price_exact_out, invoke_sol_to_lst. rewrite sc_src0, sc_dst0, sc_cs0, sc_cd0, sc_cp0.
  rewrite (proj2 (decode_range_ok _ out_lo out_sol)) by auto. cbn [bind].
  rewrite (proj2 (Z.eqb_neq out_sol 0)) by assumption. cbn [negb guard].
  rewrite (proj2 (decode_u64_ok _ in_sol)) by auto. cbn [bind].
  rewrite (proj2 (decode_range_ok _ pay_lo pay)) by auto. cbn [bind].
  rewrite (proj2 (Z.leb_le _ _)) by assumption. cbn [guard].
  rewrite (proj2 (Z.eqb_neq pay 0)) by assumption. cbn [negb guard].
  rewrite Ft, Fe. cbn [bind]. exact Hst.
Qed.

(** ** Liquidity *)
Record liq_call (ls : LstState) (ps : PoolState) (who lst_acc lp_acc : key) (ms mp : list Meta)
  (A : LiqAccounts) (c cp : Cpi) : Prop := {
  lc_c : mk (cpi_prog c) = sol_value_calculator ls; lc_ms : cpi_accs c = ms;
  lc_cp : mk (cpi_prog cp) = pricing_program ps; lc_mp : cpi_accs cp = mp;
  lc_who : mk (la_signer A) = who; lc_lst : mk (la_lst_acc A) = lst_acc; lc_lp : mk (la_lp_acc A) = lp_acc;
  lc_mint : mk (la_lst_mint A) = ls_mint ls; lc_lpm : mk (la_lp_token_mint A) = lp_token_mint ps;
  lc_pool : mk (la_pool_state A) = POOL_STATE_ID; lc_list : mk (la_lst_state_list A) = LST_STATE_LIST_ID;
  lc_fee : mk (la_protocol_fee_accumulator A) = accumulator_key D w (ls_mint ls);
  lc_prog : mk (la_lst_token_program A) = w_owner w (ls_mint ls);
  lc_lpprog : mk (la_lp_token_program A) = SPL_TOKEN_ID;
  lc_res : mk (la_pool_reserves A) = reserves_key D w (ls_mint ls);
  lc_sig : is_signer (la_signer A) = true }.

Lemma verify_liq_can (b : bool) ps l ls n i who lst_acc lp_acc accs more ms mp :
  the_pool w = Some ps -> the_list w = Some l -> running ps ->
  nth_error l (Z.to_nat i) = Some ls -> (b = true -> is_input_disabled ls = 0) -> liq_groups more n ps ls ms mp ->
  passes accs (liq_asks D w ps (ls_mint ls) who lst_acc lp_acc) more ->
  exists A c cp, verify_liquidity D w accs b n i = Ok (A, (c, cp)) /\
    liq_call ls ps who lst_acc lp_acc ms mp A c cp.
Proof.
  intros Hp Hl Hrun Hs Hin (gs & gp & -> & Ln & (p1 & -> & K1) & (p3 & -> & K3)) HP.
  destruct (entry_here l _ ls Hl Hs) as (_ & _ & Rs & Fs & _).
  unfold liq_asks in HP. unfold the_pool, the_list in *. take.
  unfold verify_liquidity, resolve_liquidity, try_match_lst_mint_on_list, create_pool_reserves_address, create_protocol_fee_accumulator_address.
  drive. rewrite Hs. drive. rewrite Rs, Fs. drive. on_ ps.
  assert (Hv : (if b then ls0 <- of_option Panic (Some ls);; verify_lst_input_not_disabled ls0 else Ok tt) = Ok tt).
  { destruct b; [|reflexivity]. cbn [of_option bind]. unfold verify_lst_input_not_disabled, u8bool_is_true, u8bool_is_false.
    rewrite Hin by reflexivity. reflexivity. }
  cbn [of_option bind] in Hv. rewrite Hv. cbn [bind].
  change (p1 :: ms ++ p3 :: mp) with ((p1 :: ms) ++ (p3 :: mp)).
  rewrite (lp_cpis_can w LST_STATE_LIST_ID POOL_STATE_ID l ps ls _ i p1 ms p3 mp) by (assumption || reflexivity).
  cbn [bind]. do 3 eexists. split; [reflexivity|].
  constructor; cbn [cpi_prog cpi_accs la_signer la_lst_mint la_lst_acc la_lp_acc la_lp_token_mint
    la_protocol_fee_accumulator la_lst_token_program la_lp_token_program la_pool_state la_lst_state_list la_pool_reserves];
    assumption || reflexivity.
Qed.

Lemma liq_facts_call accs (b : bool) n i A c cp ps l ls : 0 <= n ->
  liq_facts D w accs b n i A c cp ps l ls ->
  the_pool w = Some ps /\ running ps /\ the_list w = Some l /\ nth_error l (Z.to_nat i) = Some ls /\
  (b = true -> is_input_disabled ls = 0) /\
  exists more, liq_groups more n ps ls (cpi_accs c) (cpi_accs cp) /\
    passes accs (liq_asks D w ps (ls_mint ls) (mk (la_signer A)) (mk (la_lst_acc A)) (mk (la_lp_acc A))) more /\
    liq_call ls ps (mk (la_signer A)) (mk (la_lst_acc A)) (mk (la_lp_acc A)) (cpi_accs c) (cpi_accs cp) A c cp.
Proof.
  intros Pn (-> & Ln & Sg & Wr & Kp & Kl & Ks & Klp & Klm & Hp & Hrun & Hl & Hs & Ms & Hin & Rs & Fs & Cs & Cp).
  unfold nth_lst in *.
  destruct (entry_here l _ ls Hl Hs) as (_ & _ & Rs' & Fs' & _).
  rewrite Ms in Rs', Fs'.
  assert (X1 : mk (la_pool_reserves A) = reserves_key D w (mk (la_lst_mint A))) by congruence.
  assert (X3 : mk (la_protocol_fee_accumulator A) = accumulator_key D w (mk (la_lst_mint A))) by congruence.
  repeat (split; [assumption || congruence|]).
  exists ((cpi_prog c :: cpi_accs c) ++ (cpi_prog cp :: cpi_accs cp)).
  cbn [forallb] in Wr. repeat (apply andb_true_iff in Wr as (? & Wr)).
  split; [|split].
  - do 2 eexists. split; [reflexivity|]. split; [lia|].
    split; [eexists; split; [reflexivity|assumption]|]. eexists; split; [reflexivity|assumption].
  - unfold liq_asks. rewrite Ms. eexists. split; [reflexivity|].
    repeat (apply Forall2_cons || apply Forall2_nil); (split; [cbn; congruence|split; cbn; intros; congruence]).
  - rewrite <- Ms in *. constructor; auto; congruence.
Qed.

Lemma liq_measured ps l ls i A c x x' : the_list w = Some l -> 0 <= i -> nth_error l (Z.to_nat i) = Some ls ->
  mk (cpi_prog c) = sol_value_calculator ls -> mk (la_lst_mint A) = ls_mint ls ->
  mk (la_pool_state A) = POOL_STATE_ID -> mk (la_lst_state_list A) = LST_STATE_LIST_ID ->
  mk (la_pool_reserves A) = reserves_key D w (ls_mint ls) -> within ps l w x ->
  sync_liq E x A c i = Ok x' <-> measured D E x i (cpi_accs c) x'.
Proof.
  intros Hl Hi Hs Hc Hm K1 K2 K3 W. unfold sync_liq. rewrite K1, K2, K3, Hm.
  destruct (entry_here l _ ls Hl Hs) as (_ & _ & _ & _ & T).
  apply (sync_measured D E ps l w x i _ c _ ls x' W Hi Hs eq_refl T Hc eq_refl).
Qed.
Lemma within_lp ps l x : the_pool w = Some ps -> within ps l w x ->
  w_owner x (lp_token_mint ps) = SPL_TOKEN_ID /\
  exists mi, w_mint x (lp_token_mint ps) = Some mi /\ m_auth mi = Some POOL_STATE_ID /\
    supply x (lp_token_mint ps) = m_supply mi /\ U64 (m_supply mi).
Proof.
  intros Hp W. destruct (lp_here ps Hp) as (O & mi & M & Au). rewrite (wi_owner _ _ _ _ W). split; [exact O|].
  destruct (wi_mint _ _ _ _ W _ _ M) as (i' & Hi' & A'). exists i'. split; [exact Hi'|]. split; [congruence|].
  split; [unfold supply; rewrite Hi'; reflexivity|]. exact (proj2 (wi_u64 _ _ _ _ W) _ _ Hi').
Qed.

Lemma add_sound a accs w' : ix_wfb (AddLiquidity a) = true -> process_add_liquidity D E w accs a = Ok w' ->
  exists asked more, passes accs asked more /\ trade_rule D E C w (AddLiquidity a) asked more w'.
Proof.
  intros Hwf H. apply add_liquidity_inv in H.
  destruct H as (A & c & cp & ps & l & ls & w1 & ps1 & value & value_hi & net & to_res & fee & mi & shares & w2 & w3 & w4 & ps' &
    F & Hz & S1 & P1 & I1 & I2 & Hnet & Hfee & M1 & Hsh & Hz1 & Hz2 & Hmin & T1 & T2 & T3 & S2 & P' & Htot).
  destruct a as [n i amount min]. wf Hwf. cbn [al_lst_value_calc_accs al_lst_index al_lst_amount al_min_lp_out] in *.
  apply liq_facts_call in F; [|assumption].
  destruct F as (Hp & Hrun & Hl & Hs & Hin & more & Hg & HP & []). specialize (Hin eq_refl).
  destruct (start_within ps l Hp Hl) as (W & _ & B2).
  apply (liq_measured ps l ls i A c) in S1; auto. pose proof (measured_within _ _ _ _ _ _ _ _ _ W S1) as W1.
  unfold invoke_lst_to_sol, invoke_price_lp_to_mint in *.
  apply decode_range_ok in I1 as (I1 & U1 & U2). apply decode_u64_ok in I2 as (I2 & U3).
  destruct (wi_pool _ _ _ _ W1) as (ps1' & l1 & P1' & _ & _ & _ & Ht1 & _ & Flp & _ & _ & Ft).
  assert (ps1' = ps1) by (unfold the_pool in P1'; congruence). subst ps1'.
  assert (Hn : 0 <= net <= value) by (destruct U3; lia).
  rewrite Ft in Hfee. apply add_fee_was in Hfee; [|assumption|assumption|exact Hn]. destruct Hfee as (Hfee & Hres).
  destruct (add_fee_is (lp_protocol_fee_bps ps) amount value net) as (_ & Hfb); [assumption|lia|exact Hn|]. rewrite <- Hfee in Hfb.
  apply shares_was in Hsh. rewrite lc_lpm0 in *.
  destruct (within_lp ps l w1 Hp W1) as (Ow & mi' & Hmi & Hau & Hsup & Usup). assert (mi' = mi) by congruence. subst mi'.
  rewrite <- Hsup in Hsh.
  assert (Hsn : 0 <= shares). { rewrite Hsh. apply shares_nonneg; [unfold U64 in Usup; lia|lia|lia]. }
  assert (Hr0 : 0 <= to_res) by lia. assert (Hf0 : 0 <= fee) by lia.
  destruct (entry_here l _ ls Hl Hs) as (Tp & Mm & _).
  rewrite lc_prog0, lc_res0, lc_fee0, lc_mint0, lc_sig0 in *.
  apply transfer_paid in T1; [|rewrite (wi_owner _ _ _ _ W1); auto|rewrite (wi_owner _ _ _ _ W1); auto|eapply within_mint; eauto].
  pose proof (paid_within _ _ _ _ _ _ _ _ _ _ W1 Hr0 T1) as W2.
  apply transfer_paid in T2; [|rewrite (wi_owner _ _ _ _ W2); auto|rewrite (wi_owner _ _ _ _ W2); auto|eapply within_mint; eauto].
  pose proof (paid_within _ _ _ _ _ _ _ _ _ _ W2 Hf0 T2) as W3.
  destruct (within_lp ps l w3 Hp W3) as (Ow3 & mi3 & Hmi3 & Hau3 & _).
  apply (mint_minted w3 _ _ _ _ mi3 Ow3 Hmi3 Hau3) in T3.
  pose proof (minted_within _ _ _ _ _ _ _ _ W3 Hsn T3) as W4.
  apply (liq_measured ps l ls i A c) in S2; auto.
  assert (Htt : total w1 <= total w'). { unfold total, the_pool. rewrite P1, P'. exact Htot. }
  assert (Et : total w1 = total_sol_value ps1) by (unfold total, the_pool; rewrite P1; reflexivity). rewrite <- Et in Hsh.
  rewrite Hres in T1, Hz1.
  rewrite lc_c0, lc_cp0 in *.
  do 2 eexists. split; [exact HP|].
  eapply may_add_liquidity; try eassumption. lia.
Qed.

Lemma add_complete a accs asked more w' : ix_wfb (AddLiquidity a) = true -> passes accs asked more ->
  trade_rule D E C w (AddLiquidity a) asked more w' -> process_add_liquidity D E w accs a = Ok w'.
Proof.
  intros Hwf HP H. inversion H; clear H. subst a asked more0 w'0. wf Hwf.
  match goal with Q : nth_error _ (Z.to_nat i) = Some _ |- _ => rename Q into Hs end.
  match goal with Q : the_pool w = Some ps |- _ => rename Q into Hp end.
  match goal with Q : the_list w = Some l |- _ => rename Q into Hl end.
  match goal with Q : measured D E w i ms w1 |- _ => rename Q into S1 end.
  match goal with Q : measured D E w4 i ms w' |- _ => rename Q into S2 end.
  match goal with Q : paid w1 _ _ _ _ _ _ |- _ => rename Q into T1 end.
  match goal with Q : paid w2 _ _ _ _ _ _ |- _ => rename Q into T2 end.
  match goal with Q : minted _ _ _ _ _ |- _ => rename Q into T3 end.
  match goal with Q : 0 <= net <= value |- _ => rename Q into Hn end.
  match goal with Q : fee = _ |- _ => rename Q into Hfee end.
  match goal with Q : shares = _ |- _ => rename Q into Hsh end.
  destruct (verify_liq_can true ps l ls n i who from to accs more ms mp) as (A & c & cp & HV & []); auto.
  destruct (start_within ps l Hp Hl) as (W & _ & B2).
  pose proof (measured_within _ _ _ _ _ _ _ _ _ W S1) as W1.
  destruct (wi_pool _ _ _ _ W1) as (ps1 & l1 & P1 & _ & _ & _ & Ht1 & _ & Flp & _ & _ & Ft).
  assert (Et : total w1 = total_sol_value ps1) by (unfold total; rewrite P1; reflexivity).
  destruct (add_fee_is (lp_protocol_fee_bps ps) amount value net) as (Fe & Hfb); [assumption|lia|exact Hn|].
  rewrite <- Hfee in Fe, Hfb.
  destruct (within_lp ps l w1 Hp W1) as (Ow & mi & Hmi & Hau & Hsup & Usup).
  assert (Hsn : 0 <= shares). { rewrite Hsh, Hsup. apply shares_nonneg; [unfold U64 in Usup; lia|lia|lia]. }
  assert (Hr0 : 0 <= amount - fee) by lia. assert (Hf0 : 0 <= fee) by lia.
  pose proof (paid_within _ _ _ _ _ _ _ _ _ _ W1 Hr0 T1) as W2.
  pose proof (paid_within _ _ _ _ _ _ _ _ _ _ W2 Hf0 T2) as W3.
  pose proof (minted_within _ _ _ _ _ _ _ _ W3 Hsn T3) as W4.
  pose proof (measured_within _ _ _ _ _ _ _ _ _ W4 S2) as W5.
  assert (Hsm : shares <= U64_MAX).
  { destruct (within_lp ps l w3 Hp W3) as (_ & mi3 & Hmi3 & _ & _ & U3). destruct T3 as [? mi' ? Hmi' ? ?].
    assert (mi' = mi3) by congruence. subst. unfold U64 in U3. lia. }
  destruct (entry_here l _ ls Hl Hs) as (Tp & Mm & _).
  apply transfer_paid with (prog := w_owner w (ls_mint ls)) in T1; [|rewrite (wi_owner _ _ _ _ W1); auto|rewrite (wi_owner _ _ _ _ W1); auto|eapply within_mint; eauto].
  apply transfer_paid with (prog := w_owner w (ls_mint ls)) in T2; [|rewrite (wi_owner _ _ _ _ W2); auto|rewrite (wi_owner _ _ _ _ W2); auto|eapply within_mint; eauto].
  destruct (within_lp ps l w3 Hp W3) as (Ow3 & mi3 & Hmi3 & Hau3 & _).
  apply (mint_minted w3 _ _ _ _ mi3 Ow3 Hmi3 Hau3) in T3.
  subst ms mp who from to.
  apply (liq_measured ps l ls i A c) in S1; auto.
  apply (liq_measured ps l ls i A c) in S2; auto.
  unfold process_add_liquidity. cbn [al_lst_value_calc_accs al_lst_index al_lst_amount al_min_lp_out].
  rewrite (proj2 (Z.eqb_neq amount 0)) by assumption. cbn [negb guard]. rewrite HV. cbn [bind].
  rewrite S1. cbn [bind]. unfold pool_field, try_pool_state. rewrite lc_pool0.
  unfold the_pool in P1. rewrite P1. cbn [of_option bind].
  unfold invoke_lst_to_sol, invoke_price_lp_to_mint. rewrite lc_mint0, lc_c0, lc_cp0.
  rewrite (proj2 (decode_range_ok _ value value_hi)) by auto. cbn [bind].
  rewrite (proj2 (decode_u64_ok _ net)) by (split; [assumption|unfold U64 in *; lia]). cbn [bind].
  rewrite (proj2 (Z.leb_le net value)) by lia. cbn [guard]. rewrite Ft, Fe. cbn [bind].
  unfold mint_supply. rewrite lc_lpm0, Hmi. cbn [of_option bind].
  rewrite <- Et, <- Hsup, shares_is by (rewrite <- Hsh; exact Hsm). cbn [bind]. rewrite <- Hsh.
  rewrite (proj2 (Z.eqb_neq (amount - fee) 0)) by lia. rewrite (proj2 (Z.eqb_neq shares 0)) by assumption. cbn [orb negb guard].
  rewrite (proj2 (Z.leb_le _ shares)) by assumption. cbn [guard].
  rewrite lc_prog0, lc_res0, lc_fee0, lc_sig0, lc_lpprog0.
  rewrite T1. cbn [bind]. rewrite T2. cbn [bind]. rewrite T3. cbn [bind]. rewrite S2. cbn [bind].
  destruct (wi_pool _ _ _ _ W5) as (ps5 & l5 & Hp5 & _).
  match goal with Q : total w1 <= total w' |- _ => unfold total in Q at 2; rewrite Hp5 in Q; rename Q into Hle end.
  unfold the_pool in Hp5. rewrite Hp5. cbn [of_option bind].
  rewrite (proj2 (Z.leb_le _ _)) by exact Hle. reflexivity.
Qed.


Lemma remove_sound a accs w' : ix_wfb (RemoveLiquidity a) = true -> process_remove_liquidity D E w accs a = Ok w' ->
  exists asked more, passes accs asked more /\ trade_rule D E C w (RemoveLiquidity a) asked more w'.
Proof.
  intros Hwf H. apply remove_liquidity_inv in H.
  destruct H as (A & c & cp & ps & l & ls & w1 & ps1 & mi & value & net & out & out_hi & fee & w2 & w3 & w4 &
    F & Hz & S1 & P1 & M1 & Hval & I1 & Hnv & I2 & Hfee & Ho & Hmin & T1 & T2 & T3 & S2).
  destruct a as [n i shares min]. wf Hwf. cbn [rl_lst_value_calc_accs rl_lst_index rl_lp_token_amount rl_min_lst_out] in *.
  apply liq_facts_call in F; [|assumption].
  destruct F as (Hp & Hrun & Hl & Hs & _ & more & Hg & HP & []).
  destruct (start_within ps l Hp Hl) as (W & _ & B2).
  apply (liq_measured ps l ls i A c) in S1; auto. pose proof (measured_within _ _ _ _ _ _ _ _ _ W S1) as W1.
  unfold invoke_sol_to_lst, invoke_price_lp_to_redeem in *.
  apply decode_u64_ok in I1 as (I1 & U1). apply decode_range_ok in I2 as (I2 & U2 & U3).
  destruct (wi_pool _ _ _ _ W1) as (ps1' & l1 & P1' & _ & _ & _ & Ht1 & _ & Flp & _ & _ & Ft).
  assert (ps1' = ps1) by (unfold the_pool in P1'; congruence). subst ps1'.
  assert (Hn : 0 <= net <= value) by (destruct U1; lia).
  assert (Ho0 : 0 <= out) by (destruct U2; lia).
  rewrite Ft in Hfee.
  apply remove_fee_was in Hfee; [|assumption|assumption|exact Hn].
  assert (Hf0 : 0 <= fee).
  { rewrite Hfee. apply in_tokens_nonneg; [|lia|lia]. pose proof (part_bound (lp_protocol_fee_bps ps) (value - net) B2) as Q. lia. }
  apply worth_was in Hval. rewrite lc_lpm0 in *.
  destruct (within_lp ps l w1 Hp W1) as (Ow & mi' & Hmi & Hau & Hsup & Usup). assert (mi' = mi) by congruence. subst mi'.
  rewrite <- Hsup in Hval.
  assert (Et : total w1 = total_sol_value ps1) by (unfold total, the_pool; rewrite P1; reflexivity). rewrite <- Et in Hval.
  destruct (entry_here l _ ls Hl Hs) as (Tp & Mm & _).
  rewrite lc_prog0, lc_res0, lc_fee0, lc_mint0, lc_sig0 in *.
  apply burn_burned in T1; [|exact Ow].
  assert (Hs0 : 0 <= shares) by lia.
  pose proof (burned_within _ _ _ _ _ _ _ _ _ W1 Hs0 T1) as W2.
  apply transfer_paid in T2; [|rewrite (wi_owner _ _ _ _ W2); auto|rewrite (wi_owner _ _ _ _ W2); auto|eapply within_mint; eauto].
  pose proof (paid_within _ _ _ _ _ _ _ _ _ _ W2 Ho0 T2) as W3.
  apply transfer_paid in T3; [|rewrite (wi_owner _ _ _ _ W3); auto|rewrite (wi_owner _ _ _ _ W3); auto|eapply within_mint; eauto].
  pose proof (paid_within _ _ _ _ _ _ _ _ _ _ W3 Hf0 T3) as W4.
  apply (liq_measured ps l ls i A c) in S2; auto.
  rewrite lc_c0, lc_cp0 in *.
  do 2 eexists. split; [exact HP|].
  eapply may_remove_liquidity; eassumption.
Qed.

Lemma paid_bound x m from to owner amt x' : tokens_u64 x -> paid x m from to owner amt x' -> amt <= U64_MAX.
Proof.
  intros (U & _) [f t ? (F & _) _ _ ? ?|f ? (F & _) _ ?]; specialize (U _ _ F); unfold U64 in U; lia.
Qed.

Lemma remove_complete a accs asked more w' : ix_wfb (RemoveLiquidity a) = true -> passes accs asked more ->
  trade_rule D E C w (RemoveLiquidity a) asked more w' -> process_remove_liquidity D E w accs a = Ok w'.
Proof.
  intros Hwf HP H. inversion H; clear H. subst a asked more0 w'0. wf Hwf.
  match goal with Q : nth_error _ (Z.to_nat i) = Some _ |- _ => rename Q into Hs end.
  match goal with Q : the_pool w = Some ps |- _ => rename Q into Hp end.
  match goal with Q : the_list w = Some l |- _ => rename Q into Hl end.
  match goal with Q : measured D E w i ms w1 |- _ => rename Q into S1 end.
  match goal with Q : measured D E w4 i ms w' |- _ => rename Q into S2 end.
  match goal with Q : burned _ _ _ _ _ _ |- _ => rename Q into T1 end.
  match goal with Q : paid w2 _ _ _ _ _ _ |- _ => rename Q into T2 end.
  match goal with Q : paid w3 _ _ _ _ _ _ |- _ => rename Q into T3 end.
  match goal with Q : 0 <= net <= value |- _ => rename Q into Hn end.
  match goal with Q : fee = _ |- _ => rename Q into Hfee end.
  match goal with Q : value = _ |- _ => rename Q into Hval end.
  match goal with Q : U64 out |- _ => rename Q into Uo end.
  destruct (verify_liq_can false ps l ls n i who to from accs more ms mp) as (A & c & cp & HV & []); auto; [discriminate|].
  destruct (start_within ps l Hp Hl) as (W & _ & B2).
  pose proof (measured_within _ _ _ _ _ _ _ _ _ W S1) as W1.
  destruct (wi_pool _ _ _ _ W1) as (ps1 & l1 & P1 & _ & _ & _ & Ht1 & _ & Flp & _ & _ & Ft).
  assert (Et : total w1 = total_sol_value ps1) by (unfold total; rewrite P1; reflexivity).
  destruct (within_lp ps l w1 Hp W1) as (Ow & mi & Hmi & Hau & Hsup & Usup).
  assert (Hs0 : 0 <= shares) by lia.
  assert (Hle : shares <= m_supply mi).
  { destruct T1 as [f mi' _ _ Hmi' _ Hle]. assert (mi' = mi) by congruence. subst. exact Hle. }
  destruct (worth_is (m_supply mi) (total_sol_value ps1) shares) as (Wi & Wp); [lia|exact Ht1|].
  assert (Wle : worth_of (m_supply mi) (total_sol_value ps1) shares <= U64_MAX).
  { unfold worth_of. destruct (Z.eqb_spec (m_supply mi) 0); [unfold U64_MAX; lia|].
    assert (shares * total_sol_value ps1 / m_supply mi <= total_sol_value ps1); [apply Z.div_le_upper_bound; nia|lia]. }
  rewrite Hsup, Et in Hval. rewrite <- Hval in Wi, Wp, Wle.
  assert (Ho0 : 0 <= out) by (destruct Uo; lia).
  pose proof (burned_within _ _ _ _ _ _ _ _ _ W1 Hs0 T1) as W2.
  pose proof (paid_within _ _ _ _ _ _ _ _ _ _ W2 Ho0 T2) as W3.
  pose proof (paid_bound _ _ _ _ _ _ _ (wi_u64 _ _ _ _ W3) T3) as Hfm.
  destruct (remove_fee_is (lp_protocol_fee_bps ps) value net out) as (Fe & Hf0); [assumption|lia|exact Hn|rewrite <- Hfee; exact Hfm|].
  rewrite <- Hfee in Fe, Hf0.
  pose proof (paid_within _ _ _ _ _ _ _ _ _ _ W3 Hf0 T3) as W4.
  destruct (entry_here l _ ls Hl Hs) as (Tp & Mm & _).
  apply burn_burned in T1; [|exact Ow].
  apply transfer_paid with (prog := w_owner w (ls_mint ls)) in T2; [|rewrite (wi_owner _ _ _ _ W2); auto|rewrite (wi_owner _ _ _ _ W2); auto|eapply within_mint; eauto].
  apply transfer_paid with (prog := w_owner w (ls_mint ls)) in T3; [|rewrite (wi_owner _ _ _ _ W3); auto|rewrite (wi_owner _ _ _ _ W3); auto|eapply within_mint; eauto].
  subst ms mp who from to.
  apply (liq_measured ps l ls i A c) in S1; auto.
  apply (liq_measured ps l ls i A c) in S2; auto.
  unfold process_remove_liquidity. cbn [rl_lst_value_calc_accs rl_lst_index rl_lp_token_amount rl_min_lst_out].
  rewrite (proj2 (Z.eqb_neq shares 0)) by assumption. cbn [negb guard]. rewrite HV. cbn [bind].
  rewrite S1. cbn [bind]. unfold pool_field, try_pool_state. rewrite lc_pool0.
  unfold the_pool in P1. rewrite P1. cbn [of_option bind].
  unfold mint_supply. rewrite lc_lpm0, Hmi. cbn [of_option bind]. rewrite Wi. cbn [bind].
  unfold invoke_sol_to_lst, invoke_price_lp_to_redeem. rewrite lc_mint0, lc_c0, lc_cp0.
  rewrite (proj2 (decode_u64_ok _ net)) by (split; [assumption|unfold U64 in *; lia]). cbn [bind].
  rewrite (proj2 (Z.leb_le net value)) by lia. cbn [guard].
  rewrite (proj2 (decode_range_ok _ out out_hi)) by auto. cbn [bind].
  rewrite Ft, Fe. cbn [bind].
  rewrite (proj2 (Z.eqb_neq out 0)) by assumption. cbn [orb negb guard].
  rewrite (proj2 (Z.leb_le _ out)) by assumption. cbn [guard].
  rewrite lc_prog0, lc_res0, lc_fee0, lc_sig0, lc_lpprog0.
  rewrite T1. cbn [bind]. rewrite T2. cbn [bind]. rewrite T3. cbn [bind]. exact S2.
Qed.

(** ** Sync *)
Lemma split_nth {X} (l : list X) (i : Z) x : 0 <= i -> nth_error l (Z.to_nat i) = Some x ->
  exists before after, l = before ++ x :: after /\ Z.of_nat (length before) = i.
Proof.
  intros Hi H. destruct (nth_error_split _ _ H) as (b & a & -> & L). exists b, a. split; [reflexivity|lia].
Qed.
Lemma at_nth {X} (b a : list X) i x : Z.of_nat (length b) = i -> nth_error (b ++ x :: a) (Z.to_nat i) = Some x /\ 0 <= i.
Proof. intros <-. rewrite Nat2Z.id, nth_error_app2, Nat.sub_diag by lia. split; [reflexivity|lia]. Qed.

Lemma sync_sound i accs w' : ix_wfb (SyncSolValue i) = true -> process_sync_sol_value D E w accs i = Ok w' ->
  exists asked more, passes accs asked more /\ trade_rule D E C w (SyncSolValue i) asked more w'.
Proof.
  intros Hwf H. apply sync_proc_inv in H.
  destruct H as (m1 & m2 & m3 & m4 & ps & l & ls & c & -> & K2 & K3 & W2 & W3 & Hp & Hrun & Hl & Hs & Km & Rs & Kc & Sy).
  wf Hwf. unfold nth_lst in Hs.
  destruct (entry_here l _ ls Hl Hs) as (Tp & Mm & Rs' & _ & T).
  rewrite <- Km in *. assert (Kr : mk m4 = reserves_key D w (ls_mint ls)) by congruence.
  destruct (start_within ps l Hp Hl) as (W & _).
  apply (sync_measured D E ps l w w i (cpi_accs c) c _ ls w' W) in Sy; auto; [|congruence].
  destruct (split_nth _ _ _ ltac:(eassumption) Hs) as (b & a & -> & Lb).
  do 2 eexists. split; [|eapply may_sync with (g := cpi_prog c :: cpi_accs c); eauto; eexists; eauto].
  exists [m1; m2; m3; m4]. split; [reflexivity|].
  repeat (apply Forall2_cons || apply Forall2_nil); (split; [cbn; congruence|split; cbn; intros; congruence]).
Qed.

Lemma sync_complete i accs asked more w' : ix_wfb (SyncSolValue i) = true -> passes accs asked more ->
  trade_rule D E C w (SyncSolValue i) asked more w' -> process_sync_sol_value D E w accs i = Ok w'.
Proof.
  intros Hwf HP H. inversion H; clear H. subst i0 asked g w'0. wf Hwf.
  match goal with Q : calls _ _ _ |- _ => destruct Q as (p1 & -> & K1) end.
  match goal with Q : the_pool w = Some ps |- _ => rename Q into Hp end.
  match goal with Q : the_list w = Some _ |- _ => rename Q into Hl end.
  match goal with Q : running _ |- _ => rename Q into Hrun end.
  match goal with Q : Z.of_nat _ = i |- _ => rename Q into Li end.
  match goal with Q : measured _ _ _ _ _ _ |- _ => rename Q into S1 end.
  destruct (at_nth _ after _ ls Li) as (Hs & Hi).
  destruct (entry_here _ _ ls Hl Hs) as (_ & _ & Rs & _ & T).
  destruct (start_within ps _ Hp Hl) as (W & _).
  apply (sync_measured D E ps _ w w i more0 (mkCpi p1 more0) (reserves_key D w (ls_mint ls)) ls w' W) in S1; auto.
  unfold the_pool, the_list in *. set (l := before ++ ls :: after) in *. clearbody l. clear Li. take.
  unfold process_sync_sol_value, resolve_sync_sol_value, try_match_lst_mint_on_list, create_pool_reserves_address.
  drive. rewrite Hs. drive. rewrite Rs. drive. on_ ps.
  rewrite (calc_cpi_can w LST_STATE_LIST_ID l ls i p1 more0) by (assumption || reflexivity).
  cbn [bind]. exact S1.
Qed.


(** ** Rebalancing *)
Lemma no_record ps : the_pool w = Some ps -> is_rebalancing ps = 0 -> the_record w = None.
Proof.
  intros Hp H0. destruct (reachable_inv D HD w HR) as (_ & F). unfold flag_inv in F. rewrite Hp in F.
  destruct F as [(_ & F)|(F & _)]; [exact F|lia].
Qed.
Lemma record_index ps r : the_pool w = Some ps -> the_record w = Some r -> 0 <= dst_lst_index r.
Proof.
  intros Hp H0. destruct (reachable_inv D HD w HR) as (_ & F). unfold flag_inv in F. rewrite Hp in F.
  destruct F as [(_ & F)|(_ & _ & r' & l & F & _ & _ & R & _)]; [congruence|]. assert (r' = r) by congruence. subst. lia.
Qed.

Lemma start_also accs a w' : process_start_rebalance D E C w accs a = Ok w' ->
  exists m n, nth_error accs 9 = Some m /\ mk m = INSTRUCTIONS_SYSVAR_ID /\
    nth_error accs 10 = Some n /\ mk n = SYSTEM_PROGRAM_ID.
Proof.
  intros H. unfold process_start_rebalance in H. do 12 split_accs H.
  unfold resolve_start_rebalance in H. repeat (unf; inv_ok; keys). cbn [nth_error].
  do 2 eexists. split; [reflexivity|]. split; [eassumption|]. split; [reflexivity|]. assumption.
Qed.

Lemma start_sound a accs w' : ix_wfb (StartRebalance a) = true -> process_start_rebalance D E C w accs a = Ok w' ->
  exists asked more, passes accs asked more /\ trade_rule D E C w (StartRebalance a) asked more w'.
Proof.
  intros Hwf H. destruct (start_also _ _ _ H) as (m9 & m10 & N9 & K9 & N10 & K10). apply start_rebalance_inv in H.
  destruct H as (a0 & a1 & a2 & a3 & a4 & a5 & a6 & a7 & a8 & a9 & a10 & a11 & cs & cd & ps & l & s & d & ts & td &
    w1 & w2 & ps2 & w3 & w4 & ps4 & -> & Ln & K1 & K2 & K3 & K11 & Wr & Sg & K0 & Hp & Hrun & Hl & Hs & Hd & Ms & Md & Hin &
    Rs & Rd & Ks & Kd & Ts & Hmin & Td & Hmax & Hend & S1 & S2 & P2 & T1 & S3 & _ & P4 & ->).
  cbn [nth_error app] in N9, N10. assert (a9 = m9) by congruence. assert (a10 = m10) by congruence. subst m9 m10.
  destruct a as [n i j amount mins maxd]. wf Hwf.
  cbn [sr_src_lst_calc_accs sr_src_lst_index sr_dst_lst_index sr_amount sr_min_starting_src_lst sr_max_starting_dst_lst] in *.
  unfold nth_lst in *.
  destruct (entry_here l _ s Hl Hs) as (Tp & Mm & Rs' & _ & Hts).
  destruct (entry_here l _ d Hl Hd) as (_ & _ & Rd' & _ & Htd).
  rewrite <- Ms, <- Md in *.
  assert (X1 : mk a6 = reserves_key D w (ls_mint s)) by congruence.
  assert (X2 : mk a7 = reserves_key D w (ls_mint d)) by congruence.
  rewrite X1, X2 in *.
  destruct (start_within ps l Hp Hl) as (W & _).
  apply (sync_measured D E ps l w w i (cpi_accs cs) cs _ s w1 W) in S1; auto.
  pose proof (measured_within _ _ _ _ _ _ _ _ _ W S1) as W1.
  apply (sync_measured D E ps l w w1 j (cpi_accs cd) cd _ d w2 W1) in S2; auto.
  pose proof (measured_within _ _ _ _ _ _ _ _ _ W1 S2) as W2.
  assert (Ha : 0 <= amount) by lia.
  apply transfer_paid in T1; [|rewrite (wi_owner _ _ _ _ W2); auto|rewrite (wi_owner _ _ _ _ W2); auto|eapply within_mint; eauto].
  pose proof (paid_within _ _ _ _ _ _ _ _ _ _ W2 Ha T1) as W3.
  apply (sync_measured D E ps l w w3 i (cpi_accs cs) cs _ s w4 W3) in S3; auto.
  assert (Et : total_sol_value ps2 = total w2) by (unfold total, the_pool; rewrite P2; reflexivity). rewrite Et.
  apply end_ix_scheduled in Hend.
  cbn [forallb] in Wr. repeat (apply andb_true_iff in Wr as (? & Wr)).
  do 2 eexists. split; [|eapply may_start_rebalance with (gs := cpi_prog cs :: cpi_accs cs) (gd := cpi_prog cd :: cpi_accs cd)
    (ms := cpi_accs cs) (md := cpi_accs cd) (to := mk a8)]; try eassumption.
  - exists [a0; a1; a2; a3; a4; a5; a6; a7; a8; a9; a10; a11]. split; [reflexivity|].
    repeat (apply Forall2_cons || apply Forall2_nil); (split; [cbn; congruence|split; cbn; intros; congruence]).
  - lia.
  - eexists; split; [reflexivity|assumption].
  - eexists; split; [reflexivity|assumption].
  - unfold balance. rewrite Ts. exact Hmin.
  - unfold balance. rewrite Td. exact Hmax.
Qed.

Lemma start_complete a accs asked more w' : ix_wfb (StartRebalance a) = true -> passes accs asked more ->
  trade_rule D E C w (StartRebalance a) asked more w' -> process_start_rebalance D E C w accs a = Ok w'.
Proof.
  intros Hwf HP H. inversion H; clear H. subst a asked more w'. wf Hwf.
  match goal with Q : calls gs _ _ |- _ => destruct Q as (p1 & -> & K1) end.
  match goal with Q : calls gd _ _ |- _ => destruct Q as (p2 & -> & K2) end.
  match goal with Q : Z.of_nat (length _) = n |- _ => rename Q into Ln end.
  match goal with Q : the_pool w = Some ps |- _ => rename Q into Hp end.
  match goal with Q : the_list w = Some _ |- _ => rename Q into Hl end.
  match goal with Q : running _ |- _ => rename Q into Hrun end.
  match goal with Q : nth_error _ (Z.to_nat i) = _ |- _ => rename Q into Hs end.
  match goal with Q : nth_error _ (Z.to_nat j) = _ |- _ => rename Q into Hd end.
  match goal with Q : is_input_disabled _ = 0 |- _ => rename Q into Hin end.
  match goal with Q : measured D E w i ms w1 |- _ => rename Q into S1 end.
  match goal with Q : measured D E w1 j md w2 |- _ => rename Q into S2 end.
  match goal with Q : measured D E w3 i ms w4 |- _ => rename Q into S3 end.
  match goal with Q : paid _ _ _ _ _ _ _ |- _ => rename Q into T1 end.
  match goal with Q : end_scheduled _ _ |- _ => rename Q into Hend end.
  match goal with Q : min_src <= _ |- _ => rename Q into Hmin end.
  match goal with Q : _ <= max_dst |- _ => rename Q into Hmax end.
  match goal with Q : the_pool w4 = _ |- _ => rename Q into P4 end.
  destruct (entry_here l _ s Hl Hs) as (Tp & Mm & Rs & _ & Hts).
  destruct (entry_here l _ d Hl Hd) as (_ & _ & Rd & _ & Htd).
  destruct (start_within ps l Hp Hl) as (W & _).
  pose proof (measured_within _ _ _ _ _ _ _ _ _ W S1) as W1.
  pose proof (measured_within _ _ _ _ _ _ _ _ _ W1 S2) as W2.
  assert (Ha : 0 <= amount) by lia.
  pose proof (paid_within _ _ _ _ _ _ _ _ _ _ W2 Ha T1) as W3.
  pose proof (measured_within _ _ _ _ _ _ _ _ _ W3 S3) as W4.
  apply (sync_measured D E ps l w w i ms (mkCpi p1 ms) (reserves_key D w (ls_mint s)) s w1 W) in S1; auto.
  apply (sync_measured D E ps l w w1 j md (mkCpi p2 md) (reserves_key D w (ls_mint d)) d w2 W1) in S2; auto.
  apply (sync_measured D E ps l w w3 i ms (mkCpi p1 ms) (reserves_key D w (ls_mint s)) s w4 W3) in S3; auto.
  apply transfer_paid with (prog := w_owner w (ls_mint s)) in T1; [|rewrite (wi_owner _ _ _ _ W2); auto|rewrite (wi_owner _ _ _ _ W2); auto|eapply within_mint; eauto].
  destruct (wi_pool _ _ _ _ W2) as (ps2 & l2 & P2 & _).
  assert (Et : total w2 = total_sol_value ps2) by (unfold total; rewrite P2; reflexivity). rewrite Et.
  assert (R4 : w_rec w4 REBALANCE_RECORD_ID = None).
  { rewrite (wi_rec _ _ _ _ W4). exact (no_record ps Hp (proj1 Hrun)). }
  apply end_ix_scheduled, scan_spec in Hend. fold (verify_has_succeeding_end_rebalance_ix C (ls_mint d)) in Hend.
  unfold the_pool, the_list, balance in *.
  destruct (w_tok w (reserves_key D w (ls_mint s))) as [ts|] eqn:Ets; [|congruence].
  destruct (w_tok w (reserves_key D w (ls_mint d))) as [td|] eqn:Etd; [|congruence].
  take.
  unfold process_start_rebalance, resolve_start_rebalance, try_match_lst_mint_on_list, create_pool_reserves_address.
  cbn [sr_src_lst_calc_accs sr_src_lst_index sr_dst_lst_index sr_amount sr_min_starting_src_lst sr_max_starting_dst_lst].
  drive. rewrite Hs. drive. rewrite Rs. drive. rewrite Hd. drive. rewrite Rd. drive.
  rewrite Ets. drive. rewrite (proj2 (Z.leb_le _ _)) by exact Hmin. drive.
  rewrite Etd. drive. rewrite (proj2 (Z.leb_le _ _)) by exact Hmax. drive. on_ ps. drive. rewrite ?Hd. drive.
  unfold verify_lst_input_not_disabled, u8bool_is_true, u8bool_is_false. rewrite Hin. cbn [Z.eqb negb guard bind].
  change (p1 :: ms ++ p2 :: md) with ((p1 :: ms) ++ (p2 :: md)).
  rewrite (two_cpis_can w LST_STATE_LIST_ID l s d _ i j p1 ms p2 md) by (assumption || reflexivity).
  cbn [bind]. rewrite Hend. cbn [bind]. rewrite S1. cbn [bind]. rewrite S2. cbn [bind].
  unfold pool_field, try_pool_state. rewrite P2. cbn [of_option bind]. rewrite T1. cbn [bind]. rewrite S3. cbn [bind].
  rewrite R4. cbn [guard]. cbn [w_pool put_rec]. rewrite P4. reflexivity.
Qed.

(** The world EndRebalance measures in. *)
Lemma ending_within ps l : the_pool w = Some ps -> the_list w = Some l ->
  within ps l w (put_pool w POOL_STATE_ID (Some (set_rebalancing ps 0))).
Proof.
  intros Hp Hl. destruct (start_within ps l Hp Hl) as ([(ps1 & l1 & P1 & L1 & Q) O R T M U] & _).
  assert (ps1 = ps) by congruence. assert (l1 = l) by congruence. subst.
  constructor; auto. exists (set_rebalancing ps 0), l. split; [unfold the_pool; cbn [w_pool put_pool]; apply upd_same|].
  split; [exact Hl|]. exact Q.
Qed.

Lemma end_sound accs w' : process_end_rebalance D E w accs = Ok w' ->
  exists asked more, passes accs asked more /\ trade_rule D E C w EndRebalance asked more w'.
Proof.
  intros H. apply end_rebalance_inv in H.
  destruct H as (a0 & a1 & a2 & a3 & a4 & a5 & c & ps & l & r & d & w2 & ps2 & -> & K1 & K2 & K3 & W1 & W2 & W3 & Sg & K0 &
    Hp & Hreb & Hl & Hr & Hd & Md & Rd & Kc & S1 & P2 & Hle & ->).
  unfold nth_lst in *. pose proof (record_index ps r Hp Hr) as Hj.
  destruct (entry_here l _ d Hl Hd) as (_ & _ & Rd' & _ & Htd).
  rewrite <- Md in *.
  assert (X1 : mk a5 = reserves_key D w (ls_mint d)) by congruence.
  apply (sync_measured D E ps l w _ _ (cpi_accs c) c _ d w2 (ending_within ps l Hp Hl)) in S1; auto; [|congruence].
  do 2 eexists. split; [|eapply may_end_rebalance with (g := cpi_prog c :: cpi_accs c) (md := cpi_accs c)]; try eassumption.
  - exists [a0; a1; a2; a3; a4; a5]. split; [reflexivity|].
    repeat (apply Forall2_cons || apply Forall2_nil); (split; [cbn; congruence|split; cbn; intros; congruence]).
  - eexists; split; [reflexivity|assumption].
  - unfold total, the_pool. rewrite P2. exact Hle.
Qed.

Lemma end_complete accs asked more w' : passes accs asked more ->
  trade_rule D E C w EndRebalance asked more w' -> process_end_rebalance D E w accs = Ok w'.
Proof.
  intros HP H. inversion H; clear H. subst asked g w'.
  match goal with Q : calls _ _ _ |- _ => destruct Q as (p1 & -> & K1) end.
  match goal with Q : the_pool w = Some ps |- _ => rename Q into Hp end.
  match goal with Q : the_list w = Some _ |- _ => rename Q into Hl end.
  match goal with Q : the_record w = Some _ |- _ => rename Q into Hr end.
  match goal with Q : is_rebalancing ps <> 0 |- _ => rename Q into Hreb end.
  match goal with Q : nth_error _ _ = Some d |- _ => rename Q into Hd end.
  match goal with Q : measured D E _ _ _ w2 |- _ => rename Q into S1 end.
  match goal with Q : _ <= total w2 |- _ => rename Q into Hle end.
  pose proof (record_index ps r Hp Hr) as Hj.
  destruct (entry_here l _ d Hl Hd) as (_ & _ & Rd & _ & Htd).
  fold (set_rebalancing ps 0) in S1. pose proof (ending_within ps l Hp Hl) as W.
  pose proof (measured_within _ _ _ _ _ _ _ _ _ W S1) as W2.
  apply (sync_measured D E ps l w _ _ md (mkCpi p1 md) (reserves_key D w (ls_mint d)) d w2 W) in S1; auto.
  destruct (wi_pool _ _ _ _ W2) as (ps2 & l2 & P2 & _).
  unfold total in Hle. rewrite P2 in Hle.
  unfold the_pool, the_list, the_record in *. take.
  unfold process_end_rebalance, resolve_end_rebalance, try_match_lst_mint_on_list, create_pool_reserves_address, try_rebalance_record.
  drive. rewrite Hr. drive. rewrite Hd. drive. rewrite Rd. drive.
  unfold u8bool_is_true, u8bool_is_false. rewrite (proj2 (Z.eqb_neq _ _) Hreb). cbn [negb guard].
  rewrite (calc_cpi_can w LST_STATE_LIST_ID l d (dst_lst_index r) p1 md) by (assumption || reflexivity).
  cbn [bind]. cbn [w_rec put_pool]. rewrite Hr. cbn [of_option bind]. rewrite S1. cbn [bind].
  unfold pool_field, try_pool_state. rewrite P2. cbn [of_option bind].
  rewrite (proj2 (Z.leb_le _ _)) by exact Hle. reflexivity.
Qed.

End WithDerive.

(* ------------------------------------------------------------------ *)
(** * C49: the rules are exactly what the program does *)
Section Exact.
Variable D : Derive.
Hypothesis HD : derive_ok D.
Variable E : Env.
Variable C : Ctx.
Variable w : World.
Hypothesis HR : reachable D w.

(** What a rule permits succeeds, and leads to exactly the world the rule names. *)
Theorem C49_permitted ix accs asked more w' : ix_wfb ix = true ->
  trade_rule D E C w ix asked more w' -> passes accs asked more -> process D E C w accs ix = Ok w'.
Proof.
  intros Hwf R P. unfold process. rewrite Hwf. cbn [guard].
  destruct ix; try solve [inversion R].
  - exact (sync_complete D HD E C w HR _ accs asked more w' Hwf P R).
  - exact (swap_in_complete D HD E C w HR _ accs asked more w' Hwf P R).
  - exact (swap_out_complete D HD E C w HR _ accs asked more w' Hwf P R).
  - exact (add_complete D HD E C w HR _ accs asked more w' Hwf P R).
  - exact (remove_complete D HD E C w HR _ accs asked more w' Hwf P R).
  - exact (start_complete D HD E C w HR _ accs asked more w' Hwf P R).
  - exact (end_complete D HD E C w HR accs asked more w' P R).
Qed.

(** What succeeds is permitted by one of the rules. *)
Theorem C49_only_permitted ix accs w' : is_trade_ix ix = true -> process D E C w accs ix = Ok w' ->
  exists asked more, trade_rule D E C w ix asked more w' /\ passes accs asked more.
Proof.
  intros Ht H. unfold process in H. apply guard_ok in H as (Hwf & H).
  assert (G : exists asked more, passes accs asked more /\ trade_rule D E C w ix asked more w').
  { destruct ix; try discriminate Ht.
    - exact (sync_sound D HD E C w HR _ accs w' Hwf H).
    - exact (swap_in_sound D HD E C w HR _ accs w' Hwf H).
    - exact (swap_out_sound D HD E C w HR _ accs w' Hwf H).
    - exact (add_sound D HD E C w HR _ accs w' Hwf H).
    - exact (remove_sound D HD E C w HR _ accs w' Hwf H).
    - exact (start_sound D HD E C w HR _ accs w' Hwf H).
    - exact (end_sound D HD E C w HR accs w' H). }
  destruct G as (asked & more & P & R). eauto.
Qed.

(** Both together. *)
Theorem C49_exactly ix accs w' : is_trade_ix ix = true -> ix_wfb ix = true ->
  (process D E C w accs ix = Ok w' <->
   exists asked more, trade_rule D E C w ix asked more w' /\ passes accs asked more).
Proof.
  intros Ht Hwf. split; [apply C49_only_permitted; exact Ht|].
  intros (asked & more & R & P). eapply C49_permitted; eauto.
Qed.

(** The rules leave no choice. *)
Corollary C49_one_outcome ix accs a1 m1 w1 a2 m2 w2 : ix_wfb ix = true ->
  trade_rule D E C w ix a1 m1 w1 -> passes accs a1 m1 ->
  trade_rule D E C w ix a2 m2 w2 -> passes accs a2 m2 -> w1 = w2.
Proof.
  intros Hwf R1 P1 R2 P2. pose proof (C49_permitted _ _ _ _ _ Hwf R1 P1). pose proof (C49_permitted _ _ _ _ _ Hwf R2 P2). congruence.
Qed.

(** With C48: a call of any of the 23 instructions is accepted if and only if a rule permits it. *)
Theorem C49_every_instruction ix accs : ix_wfb ix = true ->
  ((exists w', process D E C w accs ix = Ok w') <->
   exists asked more, passes accs asked more /\
     ((exists ch, admin_rule D E w ix asked more ch) \/ (exists w', trade_rule D E C w ix asked more w'))).
Proof.
  intros Hwf. split.
  - intros (w' & H). destruct (is_admin_ix ix) eqn:Ha.
    + destruct (C48_only_permitted D HD E C w HR ix accs w' Ha H) as (asked & more & ch & R & P & _). eauto 6.
    + assert (Ht : is_trade_ix ix = true) by (unfold is_trade_ix; rewrite Ha; reflexivity).
      destruct (C49_only_permitted ix accs w' Ht H) as (asked & more & R & P). eauto 6.
  - intros (asked & more & P & [(ch & R)|(w' & R)]).
    + destruct (C48_permitted D HD E C w HR ix accs asked more ch Hwf R P) as (w' & H & _). eauto.
    + exists w'. eapply C49_permitted; eauto.
Qed.
End Exact.

(** Every rule has an instance in the example history. *)
Definition trade_cases : list (Ctx * World * list Meta * Ix) :=
  [(C0, W3, liq_accs MA UA FA SPL_TOKEN_ID RA CA, AddLiquidity add_args_a);
   (C0, W4, liq_accs MB UB FB SPL_TOKEN_2022_ID RB CB, AddLiquidity add_args_b);
   (C0, W5, swap_accs, SwapExactIn swap_in_args);
   (C0, W6, swap_accs, SwapExactOut swap_out_args);
   (C0, W7, liq_accs MB UB FB SPL_TOKEN_2022_ID RB CB, RemoveLiquidity rem_args);
   (reb_ctx 0, W8, start_accs, StartRebalance start_args);
   (reb_ctx 1, W10, end_accs, EndRebalance);
   (C0, W11, sync_accs, SyncSolValue 1)].
Lemma trade_cases_ok : forallb (fun '(C, w, accs, ix) => is_trade_ix ix && okb (process D0 E0 C w accs ix)) trade_cases = true.
Proof. vm_compute. reflexivity. Qed.
Lemma trade_cases_reach : Forall (fun c => reachable D0 (snd (fst (fst c)))) trade_cases.
Proof.
  unfold trade_cases.
  apply Forall_cons; [exact W3_reach|].
  apply Forall_cons; [exact W4_reach|].
  apply Forall_cons; [exact W5_reach|].
  apply Forall_cons; [exact W6_reach|].
  apply Forall_cons; [exact W7_reach|].
  apply Forall_cons; [exact W8_reach|].
  apply Forall_cons; [exact W10_reach|].
  apply Forall_cons; [exact W11_reach|].
  apply Forall_nil.
Qed.
Example C49_case C w accs ix : In (C, w, accs, ix) trade_cases ->
  exists w' asked more, process D0 E0 C w accs ix = Ok w' /\
    trade_rule D0 E0 C w ix asked more w' /\ passes accs asked more.
Proof.
  intros Hin. pose proof (proj1 (Forall_forall _ _) trade_cases_reach _ Hin) as HR. cbv beta in HR.
  change (reachable D0 w) in HR.
  pose proof trade_cases_ok as H. rewrite forallb_forall in H. specialize (H _ Hin). cbv beta iota in H.
  apply andb_true_iff in H as (Ha & Hk). apply okb_get in Hk.
  exists (get (process D0 E0 C w accs ix)).
  destruct (C49_only_permitted D0 D0_ok E0 C w HR ix accs _ Ha Hk) as (asked & more & R & P).
  exists asked, more. auto.
Qed.
(** The same calls in the wrong state, transaction or order are refused. *)
Example C49_case_refused : forallb (fun '(C, w, accs, ix) => negb (okb (process D0 E0 C w accs ix)))
  [(C0, W2, liq_accs MB UB FB SPL_TOKEN_2022_ID RB CB, AddLiquidity add_args_b);
   (C0, W16, liq_accs MB UB FB SPL_TOKEN_2022_ID RB CB, AddLiquidity add_args_b);
   (C0, W13, swap_accs, SwapExactIn swap_in_args);
   (C0, W9, swap_accs, SwapExactOut swap_out_args);
   (C0, W7, liq_accs MB UA FB SPL_TOKEN_2022_ID RB CB, RemoveLiquidity rem_args);
   (reb_ctx 1, W8, start_accs, StartRebalance start_args);
   (reb_ctx 1, W9, end_accs, EndRebalance);
   (reb_ctx 1, W11, end_accs, EndRebalance);
   (C0, W9, sync_accs, SyncSolValue 1)] = true.
Proof. vm_compute. reflexivity. Qed.
Example C49_case_facts : reachable D0 W5 /\ is_trade_ix (SwapExactIn swap_in_args) = true /\
  ix_wfb (SwapExactIn swap_in_args) = true.
Proof. split; [exact W5_reach|]. split; reflexivity. Qed.
