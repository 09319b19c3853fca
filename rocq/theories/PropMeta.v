(** C46: what the quoting client hands to Jupiter — the description and accounts of a swap, the fee figures
    of a quote, the mints it trades. *)
From Coq Require Import ZArith List Bool Lia.
From Verif Require Import Base Ratio Calc State Controller Inversion ProcInv Spec CalcProofs InvProofs ShapeProofs MoneyProofs
  Periph PeriphSpec PeriphProofs PropCalc PropFlat Serde Client ClientSpec ClientProofs PropClient Concrete ConcreteReach
  Deploy Known Jup JupSpec JupProofs JupPool JupRefresh PropJup PropRefresh JupMeta.
Import ListNotations.
Open Scope Z_scope.

(* ------------------------------------------------------------------ *)
(** * Specification *)

(** The instruction Jupiter makes of a swap description and the amounts. *)
Definition jup_ix (sw : JupSwap) (mode : SwapMode) (in_amount out_amount : Z) : Ix :=
  match sw, mode with
  | SanctumS ns nd i j, ExactIn => SwapExactIn (mkSwapIn ns nd i j out_amount in_amount)
  | SanctumS ns nd i j, ExactOut => SwapExactOut (mkSwapOut ns nd i j in_amount out_amount)
  | SanctumSAddLiquidity n i, _ => AddLiquidity (mkAddLiq n i in_amount out_amount)
  | SanctumSRemoveLiquidity n i, _ => RemoveLiquidity (mkRemLiq n i in_amount out_amount)
  end.
(** The same swap for other amounts. *)
Definition with_amounts (p : SwapParams) (a b : Z) : SwapParams :=
  mkSwapParams a b (p_source_mint p) (p_destination_mint p) (p_source_token_account p)
    (p_destination_token_account p) (p_authority p).
(** Exact-out is for swaps between LSTs only. *)
Definition supported (SP : SPool) (p : SwapParams) (mode : SwapMode) : Prop :=
  mode = ExactIn \/
  forall ps, jp_pool SP = Some ps -> p_source_mint p <> lp_token_mint ps /\ p_destination_mint p <> lp_token_mint ps.

(** The calculator on chain of the listed mint [m], given the client's accounts for it, values [x] lamports
    of the LST at [v], resp. says [v] of it are worth [x] lamports of SOL. *)
Definition chain_entry (dp : Deploy) (w : World) (SP : SPool) (m : key) (ls : LstState) (accs : list Meta) : Prop :=
  exists l ld, the_list w = Some l /\ In ls l /\ ls_mint ls = m /\ In (Some ld) (jp_data SP) /\
    kn_lst_mint dp (ld_calc ld) = m /\ accs = skipn 1 (kn_ix_accounts dp (ld_calc ld)).
Definition says_to_sol (dp : Deploy) (E : Env) (w : World) (SP : SPool) (m : key) (x : Z) (v : Z * Z) : Prop :=
  exists ls accs, chain_entry dp w SP m ls accs /\ e_lst_to_sol E w (sol_value_calculator ls) m accs x = Ok v.
Definition says_to_lst (dp : Deploy) (E : Env) (w : World) (SP : SPool) (m : key) (x : Z) (v : Z * Z) : Prop :=
  exists ls accs, chain_entry dp w SP m ls accs /\ e_sol_to_lst E w (sol_value_calculator ls) m accs x = Ok v.
(** The share of [amount] LP tokens in the pool, once the LST's reserves have been valued anew. *)
Definition lp_share (dp : Deploy) (D : Derive) (E : Env) (w : World) (SP : SPool) (ps : PoolState) (m : key)
  (amount before : Z) : Prop :=
  exists ls accs v hi, chain_entry dp w SP m ls accs /\
    e_lst_to_sol E w (sol_value_calculator ls) m accs (balance w (reserves_of D w m)) = Ok (v, hi) /\
    let total := total_sol_value ps - sol_value ls + v in
    let sup := supply w (lp_token_mint ps) in
    sup <> 0 /\ before = amount * total / sup.
(** The SOL value of a trade before and after fees, as the programs on chain have it. *)
Definition trade_values (dp : Deploy) (D : Derive) (E : Env) (w : World) (SP : SPool) (ps : PoolState)
  (mode : SwapMode) (src dst : key) (amount before after : Z) : Prop :=
  let pp := pricing_program ps in
  if src =? lp_token_mint ps then
    lp_share dp D E w SP ps dst amount before /\
    exists pa, e_price_lp_to_redeem E w pp dst pa amount before = Ok after
  else if dst =? lp_token_mint ps then
    (exists hi, says_to_sol dp E w SP src amount (before, hi)) /\
    exists pa, e_price_lp_to_mint E w pp src pa amount before = Ok after
  else match mode with
  | ExactIn => (exists hi, says_to_sol dp E w SP src amount (before, hi)) /\
               exists pa, e_price_exact_in E w pp src dst pa amount before = Ok after
  | ExactOut => (exists lo, says_to_sol dp E w SP dst amount (lo, after)) /\
                exists pa, e_price_exact_out E w pp src dst pa amount after = Ok before
  end.

(* ------------------------------------------------------------------ *)
(** * Accounts *)

Definition pricing_matches (dp : Deploy) (SP : SPool) : Prop :=
  forall ps, jp_pool SP = Some ps -> jp_pricing SP <> None -> pricing_program ps = ff_id (dp_flat dp).
Lemma run_pricing R dp D lsts w pw SP : derive_ok D -> flat_derive_ok (dp_flat dp) ->
  client_run R dp D lsts w pw SP -> pricing_matches dp SP.
Proof.
  intros HD HF Hrun ps Hp Hpp.
  pose proof (al_pool _ _ _ _ _ _ (run_aligned R dp D lsts HD HF w pw SP Hrun)) as H. rewrite Hp in H. apply H. exact Hpp.
Qed.

Section Metas.
Context (dp : Deploy) (D : Derive) (SP : SPool) (p : SwapParams) (ps : PoolState).
Hypothesis Hp : jp_pool SP = Some ps.
Hypothesis Hm : pricing_matches dp SP.

Lemma jps : jp_pool_state SP = Ok ps. Proof. unfold jp_pool_state. now rewrite Hp. Qed.

Lemma swap_metas_fwd sw m : swap_exact_in_swap_and_account_metas dp D SP p = Ok (sw, m) ->
  exists accs, m = ro S_CONTROLLER_ID :: accs /\ forall a b,
    swap_exact_in_ix dp D SP (with_amounts p a b) = Ok (built accs (jup_ix sw ExactIn a b)) /\
    swap_exact_out_ix dp D SP (with_amounts p a b) = Ok (built accs (jup_ix sw ExactOut a b)).
Proof.
  unfold swap_exact_in_swap_and_account_metas. intros H.
  apply bind_ok in H as ((sls & sld) & Hs & H). apply bind_ok in H as ((dls & dld) & Hd & H).
  apply bind_ok in H as (((keys & (i & j)) & progs) & Hk & H).
  apply bind_ok in H as ((g & (ns & nd)) & Hg & H). apply bind_ok in H as (pp & Hpp & H).
  apply bind_ok in H as (pa & Hpa & H). apply bind_ok in H as (gp & Hgp & H).
  apply bind_ok in H as (i' & Hi & H). apply bind_ok in H as (j' & Hj & H).
  assert (Hff : pricing_program ps = ff_id (dp_flat dp)).
  { apply Hm; auto. unfold jp_pricing_prog in Hpp. apply of_option_ok in Hpp. congruence. }
  injection H as <- <-. exists (keys ++ g ++ gp). split; [reflexivity|]. intros a b.
  unfold swap_exact_in_ix, swap_exact_out_ix, with_amounts, client_swap_exact_in, client_swap_exact_out.
  cbn [p_in_amount p_out_amount p_source_mint p_destination_mint p_source_token_account p_destination_token_account p_authority].
  rewrite Hs, Hd, jps, Hpp. cbn [bind]. rewrite Hpa. cbn [bind]. rewrite Hk. cbn [bind]. rewrite Hi, Hj. cbn [bind].
  rewrite Hg. cbn [bind]. rewrite Hff, Hgp. cbn [bind]. split; reflexivity.
Qed.
Lemma swap_metas_bwd : (exists t, swap_exact_in_ix dp D SP p = Ok t) \/ (exists t, swap_exact_out_ix dp D SP p = Ok t) ->
  exists r, swap_exact_in_swap_and_account_metas dp D SP p = Ok r.
Proof.
  intros H. unfold swap_exact_in_ix, swap_exact_out_ix, client_swap_exact_in, client_swap_exact_out in H.
  rewrite jps in H. unfold swap_exact_in_swap_and_account_metas.
  destruct (find_ready_lst SP (p_source_mint p)) as [(sls & sld)|e]; [|destruct H as [(t & H)|(t & H)]; discriminate H].
  destruct (find_ready_lst SP (p_destination_mint p)) as [(dls & dld)|e]; [|destruct H as [(t & H)|(t & H)]; discriminate H].
  cbn [bind] in *.
  destruct (jp_pricing_prog SP) as [pp|e] eqn:Hpp; [|destruct H as [(t & H)|(t & H)]; discriminate H]. cbn [bind] in *.
  assert (Hff : pricing_program ps = ff_id (dp_flat dp)).
  { apply Hm; auto. unfold jp_pricing_prog in Hpp. apply of_option_ok in Hpp. congruence. }
  destruct (kf_swap_accounts dp pp (p_source_mint p) (p_destination_mint p)) as [pa|e];
    [|destruct H as [(t & H)|(t & H)]; discriminate H]. cbn [bind] in *.
  destruct (client_swap_keys _ _ _ _ _ _ _ _) as [((keys & (i & j)) & progs)|e];
    [|destruct H as [(t & H)|(t & H)]; discriminate H]. cbn [bind] in *.
  destruct (index_to_u32 i) as [i'|e]; [|destruct H as [(t & H)|(t & H)]; discriminate H].
  destruct (index_to_u32 j) as [j'|e]; [|destruct H as [(t & H)|(t & H)]; discriminate H]. cbn [bind] in *.
  destruct (extend_with_src_dst _ _ progs) as [(g & (ns & nd))|e]; [|destruct H as [(t & H)|(t & H)]; discriminate H].
  cbn [bind] in *. rewrite Hff in H.
  destruct (extend_with_price_swap pa _) as [gp|e]; [|destruct H as [(t & H)|(t & H)]; discriminate H]. cbn [bind]. eauto.
Qed.

(** Both liquidity instructions. *)
Lemma liq_metas_fwd signer la lpa m ld pr pr' mks sw ms :
  skipn 1 pr = skipn 1 pr' -> (len pr <=? U8_MAX) = (len pr' <=? U8_MAX) ->
  liquidity_metas dp D SP signer la lpa m ld pr mks = Ok (sw, ms) ->
  (exists pp, jp_pricing_prog SP = Ok pp) /\ exists n i accs, sw = mks n i /\ ms = ro S_CONTROLLER_ID :: accs /\ forall mkix,
    client_liquidity D (jp_view SP) signer la lpa POOL_STATE_ID LST_STATE_LIST_ID m (kn_ix_accounts dp (ld_calc ld)) pr' mkix =
      Ok (built accs (mkix n i)).
Proof.
  intros Ep El. unfold liquidity_metas, liquidity_keys, client_liquidity. intros H.
  apply bind_ok in H as (((keys & i) & (calc & pricing)) & Hk & H).
  apply bind_ok in Hk as (l & Hl & Hk). apply bind_ok in Hk as ((i0 & ls) & Hi0 & Hk).
  apply bind_ok in Hk as (r & Hr & Hk). apply bind_ok in Hk as (f & Hf & Hk). apply bind_ok in Hk as (ps' & Hps & Hk).
  injection Hk as <- <- <- <-.
  apply bind_ok in H as ((g & n) & Hg & H). apply bind_ok in H as (pp & Hpp & H).
  apply bind_ok in H as ((gp & np) & Hgp & H). apply bind_ok in H as (i' & Hi & H). injection H as <- <-.
  split; [eauto|]. exists n, i'. eexists. split; [reflexivity|]. split; [reflexivity|]. intros mkix.
  rewrite Hl. cbn [bind]. rewrite Hi0. cbn [bind]. rewrite Hr. cbn [bind]. rewrite Hf. cbn [bind]. rewrite Hps. cbn [bind].
  rewrite Hi. cbn [bind]. rewrite Hg. cbn [bind]. unfold extend_with_calc in *. rewrite El, Ep in Hgp.
  apply guard_ok in Hgp as (Hb & Hgp). rewrite Hb. cbn [guard bind]. injection Hgp as <- _. reflexivity.
Qed.
Lemma liq_metas_bwd signer la lpa m ld pr pr' mks mkix t :
  (len pr <=? U8_MAX) = (len pr' <=? U8_MAX) -> (exists pp, jp_pricing_prog SP = Ok pp) ->
  client_liquidity D (jp_view SP) signer la lpa POOL_STATE_ID LST_STATE_LIST_ID m (kn_ix_accounts dp (ld_calc ld)) pr' mkix = Ok t ->
  exists r, liquidity_metas dp D SP signer la lpa m ld pr mks = Ok r.
Proof.
  intros El (pp & Hpp). unfold liquidity_metas, liquidity_keys, client_liquidity. intros H.
  apply bind_ok in H as (l & Hl & H). apply bind_ok in H as ((i0 & ls) & Hi0 & H).
  apply bind_ok in H as (r & Hr & H). apply bind_ok in H as (f & Hf & H). apply bind_ok in H as (ps' & Hps & H).
  apply bind_ok in H as (i & Hi & H). apply bind_ok in H as ((g & n) & Hg & H). apply bind_ok in H as ((gp & np) & Hgp & H).
  rewrite Hl. cbn [bind]. rewrite Hi0. cbn [bind]. rewrite Hr. cbn [bind]. rewrite Hf. cbn [bind]. rewrite Hps. cbn [bind].
  rewrite Hg. cbn [bind]. rewrite Hpp. cbn [bind]. unfold extend_with_calc in *. apply guard_ok in Hgp as (Hb & _).
  rewrite El, Hb. cbn [guard bind]. rewrite Hi. cbn [bind]. eauto.
Qed.
End Metas.

(** For a client at any moment: when it describes a swap to Jupiter, the accounts are the controller's
    program followed by exactly the accounts of the instruction the client itself would build, and the
    description gives exactly that instruction's data, whatever the amounts turn out to be; and it describes
    every swap it can build an instruction for. *)
Theorem C46_metas R dp D lsts w pw SP p : derive_ok D -> flat_derive_ok (dp_flat dp) -> client_run R dp D lsts w pw SP ->
  (forall sw metas, get_swap_and_account_metas dp D SP p = Ok (sw, metas) ->
     exists accs, metas = ro S_CONTROLLER_ID :: accs /\ forall a b mode, supported SP p mode ->
       swap_ix dp D SP (with_amounts p a b) mode = Ok (mkTop S_CONTROLLER_ID accs (enc_ix (jup_ix sw mode a b)))) /\
  (forall mode t, swap_ix dp D SP p mode = Ok t -> exists sw metas, get_swap_and_account_metas dp D SP p = Ok (sw, metas)).
Proof.
  intros HD HF Hrun. pose proof (run_pricing R dp D lsts w pw SP HD HF Hrun) as Hm.
  unfold get_swap_and_account_metas, swap_ix, supported, jp_pool_state.
  destruct (jp_pool SP) as [ps|] eqn:Hp; cbn [of_option bind]; [|split; [discriminate|]; intros mode t H; discriminate H].
  cbn [with_amounts p_source_mint p_destination_mint].
  destruct (Z.eqb_spec (p_source_mint p) (lp_token_mint ps)) as [Es|Es].
  - split.
    + intros sw ms H. unfold remove_liquidity_swap_and_account_metas in H. apply bind_ok in H as ((dls & dld) & Hd & H).
      apply (liq_metas_fwd dp D SP _ _ _ _ _ _ (kf_redeem_accounts dp (p_destination_mint p)) _ _ _ eq_refl eq_refl) in H as ((pp & Hpp) & n & i & accs & -> & -> & H).
      exists accs. split; [reflexivity|]. intros a b mode [->|Hs]; [|now destruct (Hs ps eq_refl)].
      unfold remove_liquidity_ix. cbn [with_amounts p_in_amount p_out_amount p_source_mint p_destination_mint p_source_token_account p_destination_token_account p_authority].
      rewrite Hd. cbn [bind]. rewrite Hpp. cbn [bind]. unfold client_remove_liquidity. rewrite H. reflexivity.
    + intros [|] t H; [|discriminate]. unfold remove_liquidity_ix in H. apply bind_ok in H as ((dls & dld) & Hd & H).
      apply bind_ok in H as (pp & Hpp & H). unfold client_remove_liquidity in H. unfold remove_liquidity_swap_and_account_metas.
      rewrite Hd. cbn [bind].
      destruct (liq_metas_bwd dp D SP _ _ _ _ _ (kf_redeem_accounts dp (p_source_mint p)) _ SanctumSRemoveLiquidity _ _ eq_refl (ex_intro _ pp Hpp) H) as ((sw & ms) & Hr).
      exists sw, ms. exact Hr.
  - destruct (Z.eqb_spec (p_destination_mint p) (lp_token_mint ps)) as [Ed|Ed].
    + split.
      * intros sw ms H. unfold add_liquidity_swap_and_account_metas in H. apply bind_ok in H as ((dls & dld) & Hd & H).
        apply (liq_metas_fwd dp D SP _ _ _ _ _ _ (kf_mint_accounts (p_source_mint p)) _ _ _ eq_refl eq_refl) in H as ((pp & Hpp) & n & i & accs & -> & -> & H).
        exists accs. split; [reflexivity|]. intros a b mode [->|Hs]; [|now destruct (Hs ps eq_refl)].
        unfold add_liquidity_ix. cbn [with_amounts p_in_amount p_out_amount p_source_mint p_destination_mint p_source_token_account p_destination_token_account p_authority].
        rewrite Hd. cbn [bind]. rewrite Hpp. cbn [bind]. unfold client_add_liquidity. rewrite H. reflexivity.
      * intros [|] t H; [|discriminate]. unfold add_liquidity_ix in H. apply bind_ok in H as ((dls & dld) & Hd & H).
        apply bind_ok in H as (pp & Hpp & H). unfold client_add_liquidity in H. unfold add_liquidity_swap_and_account_metas.
        rewrite Hd. cbn [bind].
        destruct (liq_metas_bwd dp D SP _ _ _ _ _ (kf_mint_accounts (p_source_mint p)) _ SanctumSAddLiquidity _ _ eq_refl (ex_intro _ pp Hpp) H) as ((sw & ms) & Hr).
        exists sw, ms. exact Hr.
    + assert (Hsame : (if p_in_amount p =? 0 then swap_exact_out_swap_and_account_metas dp D SP p
                       else swap_exact_in_swap_and_account_metas dp D SP p) = swap_exact_in_swap_and_account_metas dp D SP p)
        by (destruct (_ =? _); reflexivity).
      rewrite Hsame. split.
      * intros sw ms H. destruct (swap_metas_fwd dp D SP p ps Hp Hm sw ms H) as (accs & -> & Ha).
        exists accs. split; [reflexivity|]. intros a b mode _. destruct (Ha a b) as (H1 & H2).
        destruct mode; [exact H1|exact H2].
      * intros mode t H. destruct (swap_metas_bwd dp D SP p ps Hp Hm) as ((sw & ms) & Hr); [|eauto].
        destruct mode; eauto.
Qed.

(* ------------------------------------------------------------------ *)
(** * Fee figures *)

Section Fees.
Context (R : RatioLib) (dp : Deploy) (pw : PWorld) (other : Env) (D : Derive) (SP : SPool) (w : World) (ps : PoolState).
Let E := deployed_env R dp pw other.
Hypothesis HR : ratio_lib_ok R.
Hypothesis HT : pools_typed pw.
Hypothesis HDp : deploy_ok dp.
Hypothesis HF : flat_derive_ok (dp_flat dp).
Hypothesis HP : flat_reachable R (dp_flat dp) pw.
Hypothesis HD : derive_ok D.
Hypothesis Hreach : reachable D w.
Hypothesis Hsync : in_sync dp D SP w pw.
Hypothesis Hlen : Z.of_nat (length (jp_list SP)) <= U32_MAX.
Hypothesis Hready : calculators_ready dp pw SP.
Hypothesis Hp : the_pool w = Some ps.

Lemma entry m ls ld : find_ready_lst SP m = Ok (ls, ld) ->
  chain_entry dp w SP m ls (skipn 1 (kn_ix_accounts dp (ld_calc ld))) /\ In m (ready_mints SP) /\
  kn_program_id dp (ld_calc ld) = sol_value_calculator ls /\ kn_lst_mint dp (ld_calc ld) = m /\
  calc_in_sync dp pw (ld_calc ld) /\ calc_ready dp pw (ld_calc ld) /\
  ld_reserves ld = Some (balance w (reserves_of D w m)).
Proof.
  intros H. destruct (ready_entry dp pw D SP w HD Hreach Hsync Hlen Hready ps m ls ld Hp H) as (i & F).
  pose proof (kn_mint_eq dp pw D SP w _ _ _ _ F) as Hk. pose proof (ef_sync _ _ _ _ _ _ _ _ _ F) as Hs.
  pose proof (lu_mint _ _ _ _ _ _ _ _ _ (ef_look _ _ _ _ _ _ _ _ _ F)) as Hm.
  destruct (find_ready_from_spec SP m (jp_list SP) (jp_data SP) ls ld H 0) as (n & _ & H2 & H3).
  pose proof (es_reserves _ _ _ _ _ _ Hs) as Hb. rewrite Hm in Hb.
  split; [|repeat split; auto; try apply F; try apply Hs].
  exists (jp_list SP), ld. repeat split; auto; try apply (is_list _ _ _ _ _ Hsync); eauto using nth_error_In.
Qed.
Lemma to_sol m ls ld x v : find_ready_lst SP m = Ok (ls, ld) -> kn_lst_to_sol (pw_epoch pw) (ld_calc ld) x = Ok v ->
  says_to_sol dp E w SP m x v.
Proof.
  intros H Hv. destruct (entry _ _ _ H) as (He & _ & Hid & Hm & Hs & Hr & _). exists ls. eexists. split; [exact He|].
  rewrite <- Hid, <- Hm. apply (known_chain_l2s R dp pw other HDp w _ x v Hs Hr Hv).
Qed.
Lemma to_lst m ls ld x v : find_ready_lst SP m = Ok (ls, ld) -> kn_sol_to_lst R (pw_epoch pw) (ld_calc ld) x = Ok v ->
  says_to_lst dp E w SP m x v.
Proof.
  intros H Hv. destruct (entry _ _ _ H) as (He & _ & Hid & Hm & Hs & Hr & _). exists ls. eexists. split; [exact He|].
  rewrite <- Hid, <- Hm. apply (known_chain_s2l R dp pw other HDp w _ x v Hs Hr Hv).
Qed.

(** The figures, from the values before and after fees. *)
Definition figures (q : Quote) (m : key) (before after : Z) : Prop :=
  0 < before /\ 0 <= after <= before /\ q_fee_pct q = (before - after, before) /\ q_fee_mint q = m /\
  exists hi, says_to_lst dp E w SP m (before - after) (q_fee_amount q, hi).
Lemma quote_fees m ls ld before after fa fp : find_ready_lst SP m = Ok (ls, ld) -> 0 <= after -> 0 <= before ->
  calc_quote_fees R (pw_epoch pw) before after (ld_calc ld) = Ok (fa, fp) ->
  0 < before /\ 0 <= after <= before /\ fp = (before - after, before) /\ exists hi, says_to_lst dp E w SP m (before - after) (fa, hi).
Proof.
  intros Hf Ha Hb H. unfold calc_quote_fees in H. apply guard_ok in H as (H1 & H). apply guard_ok in H as (H2 & H).
  apply bind_ok in H as ((lo & hi) & Hv & H). cbn [fst] in H. apply Z.leb_le in H1. apply negb_true_iff, Z.eqb_neq in H2.
  assert (fa = lo /\ fp = (before - after, before)) as (-> & ->) by (split; congruence).
  split; [lia|]. split; [lia|]. split; [reflexivity|]. exists hi. eapply to_lst; eauto.
Qed.

Lemma fees_exact_in src dst amt q : U64 amt -> quote_swap_exact_in R SP src dst amt = Ok q ->
  exists before after, figures q dst before after /\
    (exists hi, says_to_sol dp E w SP src amt (before, hi)) /\
    exists pa, e_price_exact_in E w (pricing_program ps) src dst pa amt before = Ok after.
Proof.
  intros Hu H. unfold quote_swap_exact_in, jp_pool_state in H. rewrite (is_pool _ _ _ _ _ Hsync), Hp, (is_epoch _ _ _ _ _ Hsync) in H.
  cbn [of_option bind] in H.
  apply bind_ok in H as (pp & Hpp & H). unfold jp_pricing_prog in Hpp. apply of_option_ok in Hpp.
  destruct (is_pricing _ _ _ _ _ Hsync pp Hpp) as (HS & Hprog). specialize (Hprog ps Hp).
  apply bind_ok in H as ((ils & ild) & Hi & H). apply guard_ok in H as (Hdis & H).
  apply bind_ok in H as (((ps1 & ls1) & b1) & A1 & H). apply bind_ok in H as ((ols & old) & Ho & H).
  apply bind_ok in H as (((ps2 & ls2) & b2) & A2 & H).
  apply bind_ok in H as ((in_sol & in_hi) & V1 & H). cbn [fst] in H. apply guard_ok in H as (Hz1 & H).
  apply bind_ok in H as (out_sol & P1 & H). apply guard_ok in H as (_ & H).
  apply bind_ok in H as ((dst_out & dst_hi) & V2 & H). cbn [fst] in H. apply guard_ok in H as (Hz2 & H).
  apply bind_ok in H as (fee & Hfee & H). apply bind_ok in H as (tot & Htot & H). apply guard_ok in H as (Hliq & H).
  apply bind_ok in H as ((fa & fp) & Hq & H). injection H as <-.
  destruct (ready_entry dp pw D SP w HD Hreach Hsync Hlen Hready ps src ils ild Hp Hi) as (i & F1).
  destruct (ask_l2s_ok R dp pw other D SP w HT HDp _ _ _ _ w _ _ F1 Hu V1) as (_ & Uin & _). cbn [fst] in Uin.
  destruct (entry _ _ _ Hi) as (_ & In1 & _). destruct (entry _ _ _ Ho) as (_ & In2 & _).
  assert (Uout : U64 out_sol) by exact (in_u64 R dp pw HF HP pp _ HS src dst _ _ Uin In1 In2 P1).
  destruct (quote_fees dst ols old in_sol out_sol fa fp Ho (proj1 Uout) (proj1 Uin) Hq) as (Q1 & Q2 & Q3 & Q4).
  exists in_sol, out_sol. split; [exact (conj Q1 (conj Q2 (conj Q3 (conj eq_refl Q4))))|]. split; [exists in_hi; eapply to_sol; eauto|].
  exists (fee_metas dp src dst). rewrite Hprog. apply (price_in_iff R dp pw other HF HP pp _ HS); auto.
Qed.
Lemma fees_exact_out src dst amt q : U64 amt -> quote_swap_exact_out R SP src dst amt = Ok q ->
  exists before after, figures q dst before after /\
    (exists lo, says_to_sol dp E w SP dst amt (lo, after)) /\
    exists pa, e_price_exact_out E w (pricing_program ps) src dst pa amt after = Ok before.
Proof.
  intros Hu H. unfold quote_swap_exact_out, jp_pool_state in H. rewrite (is_pool _ _ _ _ _ Hsync), Hp, (is_epoch _ _ _ _ _ Hsync) in H.
  cbn [of_option bind] in H.
  apply bind_ok in H as (pp & Hpp & H). unfold jp_pricing_prog in Hpp. apply of_option_ok in Hpp.
  destruct (is_pricing _ _ _ _ _ Hsync pp Hpp) as (HS & Hprog). specialize (Hprog ps Hp).
  apply bind_ok in H as ((ils & ild) & Hi & H). apply guard_ok in H as (Hdis & H).
  apply bind_ok in H as (((ps1 & ls1) & b1) & A1 & H). apply bind_ok in H as ((ols & old) & Ho & H).
  apply bind_ok in H as (((ps2 & ls2) & b2) & A2 & H).
  apply bind_ok in H as ((out_lo & out_sol) & V1 & H). cbn [snd] in H. apply guard_ok in H as (Hz1 & H).
  apply bind_ok in H as (in_sol & P1 & H). apply guard_ok in H as (_ & H).
  apply bind_ok in H as ((src_lo & src_in) & V2 & H). cbn [snd] in H. apply guard_ok in H as (Hz2 & H).
  apply bind_ok in H as (fee & Hfee & H). apply bind_ok in H as (tot & Htot & H). apply guard_ok in H as (Hliq & H).
  apply bind_ok in H as ((fa & fp) & Hq & H). injection H as <-.
  destruct (ready_entry dp pw D SP w HD Hreach Hsync Hlen Hready ps dst ols old Hp Ho) as (i & F1).
  destruct (ask_l2s_ok R dp pw other D SP w HT HDp _ _ _ _ w _ _ F1 Hu V1) as (_ & _ & Uout). cbn [snd] in Uout.
  destruct (entry _ _ _ Hi) as (_ & In1 & _). destruct (entry _ _ _ Ho) as (_ & In2 & _).
  assert (Uin : U64 in_sol) by exact (out_u64 R dp pw HR pp _ HS src dst _ _ Uout In1 In2 P1).
  destruct (quote_fees dst ols old in_sol out_sol fa fp Ho (proj1 Uout) (proj1 Uin) Hq) as (Q1 & Q2 & Q3 & Q4).
  exists in_sol, out_sol. split; [exact (conj Q1 (conj Q2 (conj Q3 (conj eq_refl Q4))))|]. split; [exists out_lo; eapply to_sol; eauto|].
  exists (fee_metas dp src dst). rewrite Hprog. apply (price_out_iff R dp pw other HF HP pp _ HS); auto.
Qed.
Lemma fees_add src amt q : U64 amt -> quote_add_liquidity R SP src amt = Ok q ->
  exists before after, figures q src before after /\
    (exists hi, says_to_sol dp E w SP src amt (before, hi)) /\
    exists pa, e_price_lp_to_mint E w (pricing_program ps) src pa amt before = Ok after.
Proof.
  intros Hu H. unfold quote_add_liquidity, jp_pool_state in H. rewrite (is_pool _ _ _ _ _ Hsync), Hp, (is_epoch _ _ _ _ _ Hsync) in H.
  cbn [of_option bind] in H.
  apply bind_ok in H as (pp & Hpp & H). unfold jp_pricing_prog in Hpp. apply of_option_ok in Hpp.
  destruct (is_pricing _ _ _ _ _ Hsync pp Hpp) as (HS & Hprog). specialize (Hprog ps Hp).
  apply bind_ok in H as (sup & Hsup & H).
  apply bind_ok in H as ((ils & ild) & Hi & H). apply guard_ok in H as (Hdis & H).
  apply bind_ok in H as (((ps1 & ls1) & b1) & A1 & H).
  apply bind_ok in H as ((before & hi) & V1 & H). cbn [fst] in H. apply bind_ok in H as (after & P1 & H).
  apply guard_ok in H as (_ & H). apply bind_ok in H as (lp & Hlp & H). apply bind_ok in H as ((fa & fp) & Hq & H). injection H as <-.
  destruct (ready_entry dp pw D SP w HD Hreach Hsync Hlen Hready ps src ils ild Hp Hi) as (i & F1).
  destruct (ask_l2s_ok R dp pw other D SP w HT HDp _ _ _ _ w _ _ F1 Hu V1) as (_ & Uin & _). cbn [fst] in Uin.
  assert (after = before) as -> by (unfold kf_quote_mint in P1; congruence).
  destruct (quote_fees src ils ild before before fa fp Hi (proj1 Uin) (proj1 Uin) Hq) as (Q1 & Q2 & Q3 & Q4).
  exists before, before. split; [exact (conj Q1 (conj Q2 (conj Q3 (conj eq_refl Q4))))|]. split; [exists hi; eapply to_sol; eauto|].
  exists []. rewrite Hprog. apply (price_mint_iff R dp pw other pp). reflexivity.
Qed.
Lemma fees_remove dst amt q : U64 amt -> quote_remove_liquidity R SP dst amt = Ok q ->
  exists before after, figures q dst before after /\ lp_share dp D E w SP ps dst amt before /\
    exists pa, e_price_lp_to_redeem E w (pricing_program ps) dst pa amt before = Ok after.
Proof.
  intros Hu H. unfold quote_remove_liquidity, jp_pool_state in H. rewrite (is_pool _ _ _ _ _ Hsync), Hp, (is_epoch _ _ _ _ _ Hsync) in H.
  cbn [of_option bind] in H.
  apply bind_ok in H as (pp & Hpp & H). unfold jp_pricing_prog in Hpp. apply of_option_ok in Hpp.
  destruct (is_pricing _ _ _ _ _ Hsync pp Hpp) as (HS & Hprog). specialize (Hprog ps Hp).
  apply bind_ok in H as (sup & Hsup & H). apply of_option_ok in Hsup. rewrite (is_supply _ _ _ _ _ Hsync ps Hp) in Hsup.
  injection Hsup as <-.
  apply bind_ok in H as ((ols & old) & Ho & H).
  apply bind_ok in H as (((ps1 & ls1) & b1) & A1 & H).
  apply bind_ok in H as (before & Hbef & H).
  apply bind_ok in H as (after & P1 & H). apply guard_ok in H as (Hle & H).
  apply bind_ok in H as ((tu & tu_hi) & V2 & H). cbn [fst] in H.
  apply bind_ok in H as (fee & Hfee & H). apply bind_ok in H as (tot & Htot & H). apply guard_ok in H as (Hliq & H).
  apply bind_ok in H as ((fa & fp) & Hq & H). injection H as <-.
  destruct (ready_entry dp pw D SP w HD Hreach Hsync Hlen Hready ps dst ols old Hp Ho) as (i & F1).
  pose proof (sync_total R dp pw other D SP w HT HDp HD Hreach Hsync (mkSwapParams 0 0 0 0 0 0 0) ps Hp _ _ _ _ _ _ _ F1 A1) as Utot.
  assert (Usup : 0 <= supply w (lp_token_mint ps)).
  { destruct (lp_facts D w HD Hreach ps Hp) as (_ & mi & _ & _ & -> & Us). apply Us. }
  assert (Ubef : U64 before) by exact (lp_value_u64 SP (mkSwapParams 0 0 0 0 0 0 0) ps _ _ _ _ Usup (proj1 Utot) (proj1 Hu) Hbef).
  assert (Uaft : U64 after) by exact (redeem_u64 R dp pw HF HP pp _ HS _ _ Ubef P1).
  destruct (quote_fees dst ols old before after fa fp Ho (proj1 Uaft) (proj1 Ubef) Hq) as (Q1 & Q2 & Q3 & Q4).
  exists before, after. split; [exact (conj Q1 (conj Q2 (conj Q3 (conj eq_refl Q4))))|]. split.
  - destruct (entry _ _ _ Ho) as (He & _ & Hid & Hm & Hs & Hr & Hbal).
    unfold apply_sync_sol_value in A1. rewrite Hbal in A1. cbn [of_option bind] in A1.
    apply bind_ok in A1 as ((v & hi) & Hv & A1). apply bind_ok in A1 as ((ps' & ls') & Hw & A1).
    assert (ps' = ps1) as -> by congruence. clear A1. exists ols. eexists. exists v, hi. split; [exact He|]. split.
    + rewrite <- Hid. rewrite <- Hm at 1. apply (known_chain_l2s R dp pw other HDp w _ _ (v, hi) Hs Hr Hv).
    + unfold sync_sol_value_with_retval in Hw. apply bind_ok in Hw as (x & Hx & Hw). apply bind_ok in Hw as (y & Hy & Hw).
      apply checked_sub_ok in Hx. apply checked_add_ok in Hy. cbn [fst] in Hy.
      assert (Et : total_sol_value ps1 = total_sol_value ps - sol_value ols + v).
      { assert (ps1 = set_total ps y) as -> by congruence. cbn [set_total total_sol_value]. lia. }
      cbn zeta. rewrite <- Et. unfold calc_lp_tokens_sol_value in Hbef.
      destruct ((total_sol_value ps1 =? 0) || (supply w (lp_token_mint ps) =? 0)) eqn:Ez; [exfalso; assert (before = 0) by congruence; lia|].
      apply orb_false_iff in Ez as (Ez1 & Ez2). apply Z.eqb_neq in Ez1, Ez2. split; [exact Ez2|].
      unfold floor_apply in Hbef. rewrite (proj2 (Z.eqb_neq _ _) Ez1), (proj2 (Z.eqb_neq _ _) Ez2) in Hbef. cbn [orb] in Hbef.
      destruct (_ <=? _); [|discriminate]. injection Hbef as <-. reflexivity.
  - eexists. rewrite Hprog. apply (price_redeem_iff R dp pw other pp _ HS). exact P1.
Qed.
End Fees.

(** The fee figures of a quote are the true ones: the percentage is the share of the SOL value the trade
    loses, before against after fees, with both values the ones the programs on chain give; the amount is
    that difference converted into the fee mint by its calculator on chain; the fee mint is the LST received
    (deposited, when adding liquidity). *)
Theorem C46_fees R dp pw other D SP w ps mode src dst amount q :
  ratio_lib_ok R -> pools_typed pw -> deploy_ok dp -> flat_derive_ok (dp_flat dp) -> flat_reachable R (dp_flat dp) pw ->
  derive_ok D -> reachable D w -> in_sync dp D SP w pw -> Z.of_nat (length (jp_list SP)) <= U32_MAX ->
  calculators_ready dp pw SP -> the_pool w = Some ps -> U64 amount ->
  quote_full R SP mode src dst amount = Ok q ->
  let E := deployed_env R dp pw other in
  exists before after,
    0 < before /\ 0 <= after <= before /\ trade_values dp D E w SP ps mode src dst amount before after /\
    q_fee_pct q = (before - after, before) /\
    q_fee_mint q = (if (dst =? lp_token_mint ps) && negb (src =? lp_token_mint ps) then src else dst) /\
    exists hi, says_to_lst dp E w SP (q_fee_mint q) (before - after) (q_fee_amount q, hi).
Proof.
  intros HR HT HDp HF HP HD Hreach Hsync Hlen Hready Hp Hu H E.
  unfold quote_full, jp_pool_state in H. rewrite (is_pool _ _ _ _ _ Hsync), Hp in H. cbn [of_option bind] in H.
  unfold trade_values. destruct (Z.eqb_spec src (lp_token_mint ps)) as [Es|Es].
  - destruct mode; [|discriminate].
    destruct (fees_remove R dp pw other D SP w ps HT HDp HF HP HD Hreach Hsync Hlen Hready Hp dst amount q Hu H)
      as (b & a & (F1 & F2 & F3 & F4 & F5) & V). exists b, a. rewrite F4.
    rewrite andb_false_r. auto 10.
  - destruct (Z.eqb_spec dst (lp_token_mint ps)) as [Ed|Ed].
    + destruct mode; [|discriminate].
      destruct (fees_add R dp pw other D SP w ps HT HDp HD Hreach Hsync Hlen Hready Hp src amount q Hu H)
        as (b & a & (F1 & F2 & F3 & F4 & F5) & V). exists b, a. rewrite F4. auto 10.
    + destruct mode.
      * destruct (fees_exact_in R dp pw other D SP w ps HT HDp HF HP HD Hreach Hsync Hlen Hready Hp src dst amount q Hu H)
          as (b & a & (F1 & F2 & F3 & F4 & F5) & V). exists b, a. rewrite F4. auto 10.
      * destruct (fees_exact_out R dp pw other D SP w ps HR HT HDp HF HP HD Hreach Hsync Hlen Hready Hp src dst amount q Hu H)
          as (b & a & (F1 & F2 & F3 & F4 & F5) & V). exists b, a. rewrite F4. auto 10.
Qed.

(* ------------------------------------------------------------------ *)
(** * Mints traded *)

(** An up-to-date client names exactly the LSTs on the pool's list and the LP token; and whatever it quotes is
    a trade between two of the mints it names. *)
Theorem C46_reserve_mints dp D SP w pw ps m : in_sync dp D SP w pw -> the_pool w = Some ps ->
  (In m (get_reserve_mints SP) <-> listed w m \/ m = lp_token_mint ps).
Proof.
  intros Hs Hp. unfold get_reserve_mints. rewrite (is_pool _ _ _ _ _ Hs), Hp, in_app_iff, in_map_iff.
  pose proof (is_list _ _ _ _ _ Hs) as Hl. split.
  - intros [(ls & Hm & Hi)|[<-|[]]]; [|auto]. left. exists (jp_list SP), ls. auto.
  - intros [(l & ls & Hl' & Hi & Hm)| ->]; [|cbn; auto]. left. exists ls. split; [exact Hm|]. congruence.
Qed.
Theorem C46_quotes_named R SP mode src dst amount q : quote_full R SP mode src dst amount = Ok q ->
  In src (get_reserve_mints SP) /\ In dst (get_reserve_mints SP).
Proof.
  assert (Hr : forall m ls ld, find_ready_lst SP m = Ok (ls, ld) -> In m (get_reserve_mints SP)).
  { intros m ls ld H. destruct (find_ready_from_spec SP m _ _ ls ld H 0) as (n & H1 & H2 & _).
    pose proof (find_lst_spec _ _ _ _ _ H1) as (_ & _ & Hm). unfold get_reserve_mints. apply in_app_iff. left.
    apply in_map_iff. exists ls. eauto using nth_error_In. }
  unfold quote_full, jp_pool_state. destruct (jp_pool SP) as [ps|] eqn:Hp; [|discriminate]. cbn [of_option bind].
  assert (Hlp : In (lp_token_mint ps) (get_reserve_mints SP)).
  { unfold get_reserve_mints. rewrite Hp. apply in_app_iff. right. left. reflexivity. }
  destruct (Z.eqb_spec src (lp_token_mint ps)) as [->|Es].
  - destruct mode; [|discriminate]. unfold quote_remove_liquidity. intros H.
    apply bind_ok in H as (? & _ & H). apply bind_ok in H as (? & _ & H). apply bind_ok in H as (? & _ & H).
    apply bind_ok in H as ((? & ?) & Hd & _). split; [exact Hlp|]. eapply Hr; eauto.
  - destruct (Z.eqb_spec dst (lp_token_mint ps)) as [->|Ed].
    + destruct mode; [|discriminate]. unfold quote_add_liquidity. intros H.
      apply bind_ok in H as (? & _ & H). apply bind_ok in H as (? & _ & H). apply bind_ok in H as (? & _ & H).
      apply bind_ok in H as ((? & ?) & Hd & _). split; [|exact Hlp]. eapply Hr; eauto.
    + destruct mode; [unfold quote_swap_exact_in|unfold quote_swap_exact_out]; intros H;
      apply bind_ok in H as (? & _ & H); apply bind_ok in H as (? & _ & H); apply bind_ok in H as ((? & ?) & Hs & H);
      apply guard_ok in H as (_ & H); apply bind_ok in H as (((? & ?) & ?) & _ & H); apply bind_ok in H as ((? & ?) & Hd & _);
      split; eapply Hr; eauto.
Qed.

(* ------------------------------------------------------------------ *)
(** * A quote routed through Jupiter *)

(** The quote, then the description and accounts, then Jupiter's instruction from them: it does exactly what
    was quoted, or is refused for one of the listed reasons (the hypotheses are those of C25_quote, and a
    client grown from the chain's accounts). *)
Theorem C46_routed R dp lsts pw other D C SP w p mode q :
  ratio_lib_ok R -> pools_typed pw -> deploy_ok dp -> flat_derive_ok (dp_flat dp) -> flat_reachable R (dp_flat dp) pw ->
  derive_ok D -> client_run R dp D lsts w pw SP -> reachable D w -> in_sync dp D SP w pw ->
  Z.of_nat (length (jp_list SP)) <= U32_MAX -> calculators_ready dp pw SP -> pool_active w ->
  p_source_mint p <> p_destination_mint p -> U64 (asked p mode) ->
  quote_full R SP mode (p_source_mint p) (p_destination_mint p) (asked p mode) = Ok q -> accepts p mode q ->
  exists sw accs, get_swap_and_account_metas dp D SP p = Ok (sw, ro S_CONTROLLER_ID :: accs) /\
    match run D (deployed_env R dp pw other) C w
            (mkTop S_CONTROLLER_ID accs (enc_ix (jup_ix sw mode (p_in_amount p) (p_out_amount p)))) with
    | Ok w' => carried_out D w w' p (q_in_amount q) (q_out_amount q)
    | Err e => late_refusal D SP w p q e
    end.
Proof.
  intros HR HT HDp HF HP HD Hrun Hreach Hsync Hlen Hready Hact Hne HU Hq Hacc.
  destruct (C25_quote R dp pw other D C SP w p mode q HR HT HDp HF HP HD Hreach Hsync Hlen Hready Hact Hne HU Hq Hacc) as (t & Ht & Ho).
  destruct (C46_metas R dp D lsts w pw SP p HD HF Hrun) as (H1 & H2).
  destruct (H2 mode t Ht) as (sw & metas & Hm). destruct (H1 sw metas Hm) as (accs & -> & Ha).
  exists sw, accs. split; [exact Hm|].
  assert (Hs : supported SP p mode).
  { destruct mode; [left; reflexivity|right]. intros ps Hps. unfold quote_full, jp_pool_state in Hq. rewrite Hps in Hq.
    cbn [of_option bind] in Hq. destruct (Z.eqb_spec (p_source_mint p) (lp_token_mint ps)); [discriminate|].
    destruct (Z.eqb_spec (p_destination_mint p) (lp_token_mint ps)); [discriminate|]. auto. }
  specialize (Ha (p_in_amount p) (p_out_amount p) mode Hs). assert (Hw : with_amounts p (p_in_amount p) (p_out_amount p) = p) by (destruct p; reflexivity).
  rewrite Hw in Ha. assert (Et : mkTop S_CONTROLLER_ID accs (enc_ix (jup_ix sw mode (p_in_amount p) (p_out_amount p))) = t)
    by congruence.
  rewrite Et.
  exact Ho.
Qed.

(** The concrete client: all hypotheses met; a swap, and liquidity both ways. *)
Lemma client2_run : client_run ref_ratio_lib dp1 D0 known1 W8 pw1 client2.
Proof. apply cr_update; [exact client1_run|apply (fetched_all client1)]. Qed.
Definition routed (p : SwapParams) (mode : SwapMode) : res (Z * Z) :=
  '(sw, metas) <- get_swap_and_account_metas dp1 D0 client2 p ;;
  w' <- run D0 (deployed_env ref_ratio_lib dp1 pw1 E0) C0 W8
          (mkTop S_CONTROLLER_ID (tl metas) (enc_ix (jup_ix sw mode (p_in_amount p) (p_out_amount p)))) ;;
  Ok (balance W8 (p_source_token_account p) - balance w' (p_source_token_account p),
      balance w' (p_destination_token_account p) - balance W8 (p_destination_token_account p)).
Definition fee_of (p : SwapParams) (mode : SwapMode) : option (key * Z * (Z * Z)) :=
  match quote_full ref_ratio_lib client2 mode (p_source_mint p) (p_destination_mint p) (asked p mode) with
  | Ok q => Some (q_fee_mint q, q_fee_amount q, q_fee_pct q) | Err _ => None end.
Example C46_case :
  client_run ref_ratio_lib dp1 D0 known1 W8 pw1 client2 /\
  get_reserve_mints client2 = [MA; MB; LP] /\
  option_map fst (match get_swap_and_account_metas dp1 D0 client2 (params MA MB UA UB 10000 1) with Ok r => Some r | _ => None end) =
    Some (SanctumS 5 5 0 1) /\
  fee_of (params MA MB UA UB 10000 1) ExactIn = Some (MB, 12, (25, 10000)) /\
  routed (params MA MB UA UB 10000 1) ExactIn = Ok (10000, 4991) /\
  routed (params MB MA UB UA 6000 1000) ExactOut = Ok (502, 1000) /\
  routed (params MA LP UA UL 10000 1) ExactIn = Ok (10000, 9859) /\
  routed (params LP MB UL UB 10000 1) ExactIn = Ok (10000, 5070).
Proof. split; [exact client2_run|]. vm_compute. repeat split. Qed.
