(** C25, C42: what the off-chain clients say is what the chain does. *)
From Coq Require Import ZArith List Bool Lia.
From Verif Require Import Base Ratio Calc State Controller Inversion ProcInv Spec CalcProofs InvProofs ShapeProofs MoneyProofs
  Periph PeriphSpec PeriphProofs PropCalc PropFlat Client ClientSpec ClientProofs PropClient Concrete ConcreteReach PropTok
  Deploy Known Jup JupSpec JupProofs JupPool.
Import ListNotations.
Open Scope Z_scope.

(* ------------------------------------------------------------------ *)
(** * C42: the off-chain calculators and pricing answer as the on-chain programs *)

(** Called with the accounts the off-chain calculator lists, the on-chain calculator gives exactly the
    off-chain answer. *)
Theorem C42_lst_to_sol R dp pw other k w x v :
  ratio_lib_ok R -> pools_typed pw -> deploy_ok dp -> calc_in_sync dp pw k -> calc_ready dp pw k ->
  e_lst_to_sol (deployed_env R dp pw other) w (kn_program_id dp k) (kn_lst_mint dp k) (skipn 1 (kn_ix_accounts dp k)) x = Ok v <->
  kn_lst_to_sol (pw_epoch pw) k x = Ok v.
Proof.
  intros HR HT HD Hs Hr. split.
  - apply (chain_known_l2s R dp pw other HD w k x v Hs).
  - apply (known_chain_l2s R dp pw other HD w k x v Hs Hr).
Qed.
Theorem C42_sol_to_lst R dp pw other k w x v :
  ratio_lib_ok R -> pools_typed pw -> deploy_ok dp -> calc_in_sync dp pw k -> calc_ready dp pw k ->
  e_sol_to_lst (deployed_env R dp pw other) w (kn_program_id dp k) (kn_lst_mint dp k) (skipn 1 (kn_ix_accounts dp k)) x = Ok v <->
  kn_sol_to_lst R (pw_epoch pw) k x = Ok v.
Proof.
  intros HR HT HD Hs Hr. split.
  - apply (chain_known_s2l R dp pw other HD w k x v Hs).
  - apply (known_chain_s2l R dp pw other HD w k x v Hs Hr).
Qed.
(** Whether or not the on-chain calculator is in working order, it never contradicts the off-chain one. *)
Theorem C42_no_contradiction R dp pw other k w x v :
  ratio_lib_ok R -> pools_typed pw -> deploy_ok dp -> calc_in_sync dp pw k ->
  (e_lst_to_sol (deployed_env R dp pw other) w (kn_program_id dp k) (kn_lst_mint dp k) (skipn 1 (kn_ix_accounts dp k)) x = Ok v ->
   kn_lst_to_sol (pw_epoch pw) k x = Ok v) /\
  (e_sol_to_lst (deployed_env R dp pw other) w (kn_program_id dp k) (kn_lst_mint dp k) (skipn 1 (kn_ix_accounts dp k)) x = Ok v ->
   kn_sol_to_lst R (pw_epoch pw) k x = Ok v).
Proof.
  intros HR HT HD Hs. split.
  - apply (chain_known_l2s R dp pw other HD w k x v Hs).
  - apply (chain_known_s2l R dp pw other HD w k x v Hs).
Qed.

(** Pricing: the off-chain flat-fee program lists accounts for a swap, and called with them the on-chain
    one gives exactly the off-chain price. *)
Theorem C42_price_exact_in R dp pw other p mints w i o amount v r :
  ratio_lib_ok R -> flat_derive_ok (dp_flat dp) -> flat_reachable R (dp_flat dp) pw -> pricing_in_sync dp pw p mints ->
  In i mints -> In o mints -> exists accs, kf_swap_accounts dp p i o = Ok (ro i :: ro o :: accs) /\
  (e_price_exact_in (deployed_env R dp pw other) w (ff_id (dp_flat dp)) i o accs amount v = Ok r <->
   kf_quote_exact_in p i o v = Ok r).
Proof.
  intros HR HF HP HS Hi Ho. exists (fee_metas dp i o). split.
  - apply (swap_accounts_known R dp pw HF HP p mints HS i o Hi Ho).
  - apply (price_in_iff R dp pw other HF HP p mints HS); auto.
Qed.
Theorem C42_price_exact_out R dp pw other p mints w i o amount v r :
  ratio_lib_ok R -> flat_derive_ok (dp_flat dp) -> flat_reachable R (dp_flat dp) pw -> pricing_in_sync dp pw p mints ->
  In i mints -> In o mints -> exists accs, kf_swap_accounts dp p i o = Ok (ro i :: ro o :: accs) /\
  (e_price_exact_out (deployed_env R dp pw other) w (ff_id (dp_flat dp)) i o accs amount v = Ok r <->
   kf_quote_exact_out R p i o v = Ok r).
Proof.
  intros HR HF HP HS Hi Ho. exists (fee_metas dp i o). split.
  - apply (swap_accounts_known R dp pw HF HP p mints HS i o Hi Ho).
  - apply (price_out_iff R dp pw other HF HP p mints HS); auto.
Qed.
Theorem C42_price_lp R dp pw other p mints w m amount v r :
  pricing_in_sync dp pw p mints ->
  (e_price_lp_to_mint (deployed_env R dp pw other) w (ff_id (dp_flat dp)) m (skipn 1 (kf_mint_accounts m)) amount v = Ok r <->
   kf_quote_mint p v = Ok r) /\
  (e_price_lp_to_redeem (deployed_env R dp pw other) w (ff_id (dp_flat dp)) m (skipn 1 (kf_redeem_accounts dp m)) amount v = Ok r <->
   kf_quote_redeem p v = Ok r).
Proof.
  intros HS. split.
  - apply (price_mint_iff R dp pw other p).
  - apply (price_redeem_iff R dp pw other p mints HS).
Qed.

(* ------------------------------------------------------------------ *)
(** * C25: quotes *)

(** The amount a quote is asked for. *)
Definition asked (p : SwapParams) (mode : SwapMode) : Z :=
  match mode with ExactIn => p_in_amount p | ExactOut => p_out_amount p end.

(** With an up-to-date cache, calculators in order and an active pool: whenever the client quotes, it also
    builds the instruction; running it either does exactly what was quoted, or is refused for one of the
    listed reasons. *)
Theorem C25_quote R dp pw other D C SP w p mode q :
  ratio_lib_ok R -> pools_typed pw -> deploy_ok dp -> flat_derive_ok (dp_flat dp) -> flat_reachable R (dp_flat dp) pw ->
  derive_ok D -> reachable D w -> in_sync dp D SP w pw -> Z.of_nat (length (jp_list SP)) <= U32_MAX ->
  calculators_ready dp pw SP -> pool_active w ->
  p_source_mint p <> p_destination_mint p -> U64 (asked p mode) ->
  quote_full R SP mode (p_source_mint p) (p_destination_mint p) (asked p mode) = Ok q -> accepts p mode q ->
  exists t, swap_ix dp D SP p mode = Ok t /\
    match run D (deployed_env R dp pw other) C w t with
    | Ok w' => carried_out D w w' p (q_in_amount q) (q_out_amount q)
    | Err e => late_refusal D SP w p q e
    end.
Proof.
  intros HR HT HDp HF HP HD Hreach Hsync Hlen Hready Hact Hne HU Hq Hacc.
  pose proof Hact as (ps & Hp & _).
  assert (Hps : jp_pool_state SP = Ok ps) by (unfold jp_pool_state; rewrite (is_pool _ _ _ _ _ Hsync), Hp; reflexivity).
  unfold quote_full in Hq. unfold swap_ix. rewrite Hps in *. cbn [bind] in *.
  assert (HC : forall w' x y, carried_out D w w' p x y <-> 
     if p_source_mint p =? lp_token_mint ps then liquidity_removed D w w' (p_destination_mint p) (p_source_mint p) (p_source_token_account p) (p_destination_token_account p) x y
     else if p_destination_mint p =? lp_token_mint ps then liquidity_added D w w' (p_source_mint p) (p_destination_mint p) (p_source_token_account p) (p_destination_token_account p) x y
     else swapped D w w' (p_source_mint p) (p_destination_mint p) (p_source_token_account p) (p_destination_token_account p) x y).
  { intros w' x y. unfold carried_out. split; [intros (ps' & Hp' & H); assert (ps' = ps) as -> by congruence; exact H|eauto]. }
  destruct (Z.eqb_spec (p_source_mint p) (lp_token_mint ps)) as [Es|Es].
  - destruct mode; [|discriminate]. cbn [asked] in *.
    destruct (remove_out R dp pw other D C SP w HR HT HDp HF HP HD Hreach Hsync Hlen Hready p ps Hp Hact Hne q Es Hq HU Hacc)
      as (t & Ht & Ho). exists t. split; [exact Ht|]. rewrite Es in HC.
    destruct (run _ _ _ _ _); [|exact Ho]. apply HC. exact Ho.
  - destruct (Z.eqb_spec (p_destination_mint p) (lp_token_mint ps)) as [Ed|Ed].
    + destruct mode; [|discriminate]. cbn [asked] in *.
      destruct (add_out R dp pw other D C SP w HT HDp HD Hreach Hsync Hlen Hready p ps Hp Hact Hne q Ed Hq HU Hacc)
        as (t & Ht & Ho). exists t. split; [exact Ht|]. rewrite Ed in HC.
      destruct (run _ _ _ _ _); [|exact Ho]. apply HC. exact Ho.
    + destruct mode; cbn [asked] in *.
      * destruct (swap_in_out R dp pw other D C SP w HR HT HDp HF HP HD Hreach Hsync Hlen Hready p ps Hp Hact Hne q Es Ed Hq HU Hacc)
          as (t & Ht & Ho). exists t. split; [exact Ht|]. destruct (run _ _ _ _ _); [|exact Ho]. apply HC. exact Ho.
      * destruct (swap_out_out R dp pw other D C SP w HR HT HDp HF HP HD Hreach Hsync Hlen Hready p ps Hp Hact Hne q Es Ed Hq HU Hacc)
          as (t & Ht & Ho). exists t. split; [exact Ht|]. destruct (run _ _ _ _ _); [|exact Ho]. apply HC. exact Ho.
Qed.

(** For liquidity the remaining uncertainty is the user's own: a funded quote for something is carried out,
    unless a deposit makes the pool outgrow 64 bits. *)
Theorem C25_liquidity_certain R dp pw other D C SP w p mode q ps :
  ratio_lib_ok R -> pools_typed pw -> deploy_ok dp -> flat_derive_ok (dp_flat dp) -> flat_reachable R (dp_flat dp) pw ->
  derive_ok D -> reachable D w -> in_sync dp D SP w pw -> Z.of_nat (length (jp_list SP)) <= U32_MAX ->
  calculators_ready dp pw SP -> pool_active w ->
  p_source_mint p <> p_destination_mint p -> U64 (asked p mode) ->
  quote_full R SP mode (p_source_mint p) (p_destination_mint p) (asked p mode) = Ok q -> accepts p mode q ->
  the_pool w = Some ps -> p_source_mint p = lp_token_mint ps \/ p_destination_mint p = lp_token_mint ps ->
  funded w p q -> ~ outgrown D SP w p q -> q_out_amount q <> 0 ->
  exists t w', swap_ix dp D SP p mode = Ok t /\ run D (deployed_env R dp pw other) C w t = Ok w' /\
    carried_out D w w' p (q_in_amount q) (q_out_amount q).
Proof.
  intros HR HT HDp HF HP HD Hreach Hsync Hlen Hready Hact Hne HU Hq Hacc Hp Hlp Hfu Hog Hnz.
  destruct (C25_quote R dp pw other D C SP w p mode q HR HT HDp HF HP HD Hreach Hsync Hlen Hready Hact Hne HU Hq Hacc) as (t & Ht & Hr).
  exists t. destruct (run D (deployed_env R dp pw other) C w t) as [w'|e]; [exists w'; auto|]. exfalso.
  destruct Hr as [(_ & H)|[(_ & H)|[(_ & H)|(_ & H & _)]]]; [auto|auto| |auto]. destruct (H ps Hp) as (H1 & H2). tauto.
Qed.
(** In particular nobody who holds LP tokens can be refused a redemption the client quotes. *)
Theorem C25_exit R dp pw other D C SP w p mode q ps :
  ratio_lib_ok R -> pools_typed pw -> deploy_ok dp -> flat_derive_ok (dp_flat dp) -> flat_reachable R (dp_flat dp) pw ->
  derive_ok D -> reachable D w -> in_sync dp D SP w pw -> Z.of_nat (length (jp_list SP)) <= U32_MAX ->
  calculators_ready dp pw SP -> pool_active w ->
  p_source_mint p <> p_destination_mint p -> U64 (asked p mode) ->
  quote_full R SP mode (p_source_mint p) (p_destination_mint p) (asked p mode) = Ok q -> accepts p mode q ->
  the_pool w = Some ps -> p_source_mint p = lp_token_mint ps -> funded w p q -> q_out_amount q <> 0 ->
  exists t w', swap_ix dp D SP p mode = Ok t /\ run D (deployed_env R dp pw other) C w t = Ok w' /\
    liquidity_removed D w w' (p_destination_mint p) (lp_token_mint ps) (p_source_token_account p) (p_destination_token_account p)
      (q_in_amount q) (q_out_amount q).
Proof.
  intros HR HT HDp HF HP HD Hreach Hsync Hlen Hready Hact Hne HU Hq Hacc Hp Hlp Hfu Hnz.
  destruct (C25_liquidity_certain R dp pw other D C SP w p mode q ps HR HT HDp HF HP HD Hreach Hsync Hlen Hready Hact Hne HU Hq Hacc Hp
    (or_introl Hlp) Hfu) as (t & w' & Ht & Hr & ps' & Hp' & Hc).
  - intros (ps' & ils & ild & Hp' & Hn & _). congruence.
  - exact Hnz.
  - exists t, w'. split; [exact Ht|]. split; [exact Hr|]. assert (ps' = ps) as -> by congruence.
    cbv zeta in Hc. rewrite Hlp, Z.eqb_refl in Hc. exact Hc.
Qed.

(* ------------------------------------------------------------------ *)
(** * A concrete chain and client *)

(** MA's pool (account 514) is 1:1 without fees, MB's (524) two lamports each with a 1/1000 withdrawal fee; both
    programs' code dates from slot 40, which the managers have acknowledged. *)
Definition flat1 : FlatCfg := mkFlat PP 702 703 (fd_create flat_cfg) (fd_find flat_cfg).
Definition dp1 : Deploy := mkDeploy
  (mkCfg CA 510 511 512 513 KSpl) (mkCfg CB 520 521 522 523 KSpl) (mkCfg 42 530 531 532 533 KSpl)
  (mkCfg 43 540 541 542 543 (KLido 33 544)) (mkCfg 44 550 551 552 553 (KMarinade 34 554)) 45 flat1 46.
Definition pool_a : SplPool := mkSpl true MA 7 1000000 1000000 0 0.
Definition pool_b : SplPool := mkSpl true MB 7 2000000 1000000 1 1000.
Definition pw1_0 : PWorld := mkPW (fun k =>
  if k =? MA then mkPAcc SPL_TOKEN_ID PMint else if k =? MB then mkPAcc SPL_TOKEN_2022_ID PMint
  else if k =? 510 then mkPAcc 9 (PProgram 511) else if k =? 511 then mkPAcc 9 (PProgData 40)
  else if k =? 512 then mkPAcc CA (PCalc 513 40) else if k =? 514 then mkPAcc 510 (PSpl pool_a)
  else if k =? 520 then mkPAcc 9 (PProgram 521) else if k =? 521 then mkPAcc 9 (PProgData 40)
  else if k =? 522 then mkPAcc CB (PCalc 523 40) else if k =? 524 then mkPAcc 520 (PSpl pool_b)
  else no_account) 7.
Definition fee_a := fst (fd_find flat1 MA).
Definition fee_b := fst (fd_find flat1 MB).
Definition pw1_1 := put_acc pw1_0 702 (mkPAcc PP (PFlatState 703 5)).
Definition pw1_2 := put_acc pw1_1 fee_a (mkPAcc PP (PFlatFee 255 10 20)).
Definition pw1 := put_acc pw1_2 fee_b (mkPAcc PP (PFlatFee 255 (-5) 15)).
Definition flat_add m := [mt 703 true true; mt 703 true true; mt (fst (fd_find flat1 m)) false true; mt m false false;
                      mt 702 false false; mt SYSTEM_PROGRAM_ID false false].

Lemma flat1_derive : flat_derive_ok flat1.
Proof. destruct C24_case_derive as (A & B & Cc & _). repeat split; auto; try apply (B m b m' b' k); auto. discriminate. Qed.
Lemma pw1_reachable : flat_reachable ref_ratio_lib flat1 pw1.
Proof.
  exists pw1_0. split.
  - intros k [->|(m & b & Hk)]; [reflexivity|]. unfold flat1, flat_cfg in Hk; cbn [fd_create] in Hk.
    destruct ((0 <=? b) && (b <=? 255)) eqn:E1; [|discriminate].
    apply andb_true_iff in E1. rewrite !Z.leb_le in *.
    assert (H : 100000 + 1000 * (2 * Z.abs m + (if m <? 0 then 1 else 0)) + b = k) by congruence. clear Hk.
    assert (100000 <= k) by (destruct (m <? 0); lia). clear H. unfold pw1_0, MA, MB. cbn [pw_acc].
    repeat match goal with |- context [k =? ?c] => destruct (Z.eqb_spec k c); [lia|] end. reflexivity.
  - eapply fss_cons with pw1_2; [eapply fss_cons with pw1_1; [eapply fss_cons with pw1_0; [constructor|]|]|].
    + apply fs_call with [mt 900 true true; mt 702 false true; mt SYSTEM_PROGRAM_ID false false] FlatInitialize None. reflexivity.
    + apply fs_call with (flat_add MA) (FlatAddLst 10 20) None. reflexivity.
    + apply fs_call with (flat_add MB) (FlatAddLst (-5) 15) None. reflexivity.
Qed.
Lemma dp1_ok : deploy_ok dp1.
Proof.
  split; [reflexivity|]. split; [reflexivity|]. split; [reflexivity|]. split; [exists 33, 544; reflexivity|].
  split; [exists 34, 554; reflexivity|].
  change (NoDup [40; 41; 42; 43; 44; 45; 13; 46]).
  repeat (apply NoDup_cons; [cbn [In]; lia|]). apply NoDup_nil.
Qed.
Lemma pw1_typed : pools_typed pw1.
Proof.
  intros k. unfold pw1, pw1_2, pw1_1, pw1_0, pdata, put_acc. cbn [pw_acc]. unfold upd.
  repeat (match goal with |- context [k =? ?c] => destruct (k =? c) end; cbn [pa_data no_account];
          [exact I || (vm_compute; repeat split; discriminate)|]). exact I.
Qed.

(** The cache, as the client fills it (two updates from the accounts it asks for). *)
Definition known1 : list SanctumLst :=
  [mkSanctumLst MB (PiSpl SanctumSpl 524) SPL_TOKEN_2022_ID; mkSanctumLst MA (PiSpl SplMain 514) SPL_TOKEN_ID].
Definition the_list_or (w : World) : list LstState := match the_list w with Some l => l | None => [] end.
Definition client0 : SPool := from_lst_state_list_account dp1 (the_list_or W8) known1 7.
Definition client1 : SPool := fst (update_full dp1 D0 (chain_account W8 pw1) client0).
Definition client2 : SPool := fst (update_full dp1 D0 (chain_account W8 pw1) client1).
Definition kn_a : KnownCalc := KnSpl SplMain MA 514 (Some pool_a).
Definition kn_b : KnownCalc := KnSpl SanctumSpl MB 524 (Some pool_b).
Definition ld_a : LstData := mkLstData kn_a (Some (balance W8 RA)) SPL_TOKEN_ID.
Definition ld_b : LstData := mkLstData kn_b (Some (balance W8 RB)) SPL_TOKEN_2022_ID.
Lemma client2_is : client2 = mkSPool (Some (supply W8 LP)) (the_pool W8) (the_list_or W8)
  (Some (mkFlatCache (Some (703, 5)) [(MA, Some (255, 10, 20)); (MB, Some (255, -5, 15))])) [Some ld_a; Some ld_b] 7.
Proof. vm_compute. reflexivity. Qed.

Lemma kn_a_sync : calc_in_sync dp1 pw1 kn_a /\ calc_ready dp1 pw1 kn_a.
Proof.
  split; [exists pool_a; split; reflexivity|].
  split; [split; [reflexivity|exists pool_a; split; reflexivity]|]. split; [reflexivity|].
  split; [exists 40; split; reflexivity|]. intros p _ [= <-]. reflexivity.
Qed.
Lemma kn_b_sync : calc_in_sync dp1 pw1 kn_b /\ calc_ready dp1 pw1 kn_b.
Proof.
  split; [exists pool_b; split; reflexivity|].
  split; [split; [reflexivity|exists pool_b; split; reflexivity]|]. split; [reflexivity|].
  split; [exists 40; split; reflexivity|]. intros p _ [= <-]. reflexivity.
Qed.
Lemma client2_sync : in_sync dp1 D0 client2 W8 pw1.
Proof.
  rewrite client2_is. constructor; cbn [jp_lp_supply jp_pool jp_list jp_pricing jp_data jp_epoch].
  - reflexivity.
  - vm_compute. reflexivity.
  - intros ps Hps. assert (lp_token_mint ps = LP) as ->; [|reflexivity].
    assert (H : option_map lp_token_mint (the_pool W8) = Some LP) by (vm_compute; reflexivity). rewrite Hps in H. cbn in H. congruence.
  - reflexivity.
  - assert (Hl : exists a b, the_list_or W8 = [a; b] /\ ls_mint a = MA /\ ls_mint b = MB /\ sol_value_calculator a = CA /\
      sol_value_calculator b = CB) by (do 2 eexists; vm_compute; repeat split).
    destruct Hl as (a & b & -> & A1 & B1 & A2 & B2).
    constructor; [|constructor; [|constructor]]; intros ld [= <-]; constructor; rewrite ?A1, ?B1, ?A2, ?B2;
      try reflexivity; try apply kn_a_sync; try apply kn_b_sync; vm_compute; reflexivity.
  - intros p [= <-]. split; [split|].
    + vm_compute. reflexivity.
    + intros m Hm. assert (Hr : ready_mints client2 = [MA; MB]) by (vm_compute; reflexivity). rewrite client2_is in Hr.
      rewrite Hr in Hm. destruct Hm as [<-|[<-|[]]]; vm_compute; reflexivity.
    + intros ps Hps. assert (H : option_map pricing_program (the_pool W8) = Some PP) by (vm_compute; reflexivity).
      rewrite Hps in H. cbn in H. cbn. congruence.
Qed.
Lemma client2_ready : calculators_ready dp1 pw1 client2.
Proof.
  rewrite client2_is. intros ld [H|[H|[]]]; injection H as <-; [apply kn_a_sync|apply kn_b_sync].
Qed.

Example C42_case : forall other w,
  kn_lst_to_sol 7 kn_b 1001 = Ok (1998, 1998) /\ kn_sol_to_lst ref_ratio_lib 7 kn_b 1998 = Ok (1000, 1001) /\
  e_lst_to_sol (deployed_env ref_ratio_lib dp1 pw1 other) w CB MB (skipn 1 (kn_ix_accounts dp1 kn_b)) 1001 = Ok (1998, 1998).
Proof. intros. vm_compute. auto. Qed.

(** Four quotes, and what running the built instruction does: all amounts as quoted. *)
Definition params (src dst sa da : key) (i o : Z) : SwapParams := mkSwapParams i o src dst sa da USER.
Definition quoted (cl : SPool) (p : SwapParams) (mode : SwapMode) : option (Z * Z) :=
  match quote_full ref_ratio_lib cl mode (p_source_mint p) (p_destination_mint p) (asked p mode) with
  | Ok q => Some (q_in_amount q, q_out_amount q) | Err _ => None end.
Definition outcome (pw : PWorld) (cl : SPool) (p : SwapParams) (mode : SwapMode) : res (Z * Z) :=
  t <- swap_ix dp1 D0 cl p mode ;;
  w' <- run D0 (deployed_env ref_ratio_lib dp1 pw E0) C0 W8 t ;;
  Ok (balance W8 (p_source_token_account p) - balance w' (p_source_token_account p),
      balance w' (p_destination_token_account p) - balance W8 (p_destination_token_account p)).
Example C25_case :
  pool_active W8 /\
  quoted client2 (params MA MB UA UB 10000 1) ExactIn = Some (10000, 4991) /\
  outcome pw1 client2 (params MA MB UA UB 10000 1) ExactIn = Ok (10000, 4991) /\
  quoted client2 (params MB MA UB UA 6000 1000) ExactOut = Some (502, 1000) /\
  outcome pw1 client2 (params MB MA UB UA 6000 1000) ExactOut = Ok (502, 1000) /\
  quoted client2 (params MA LP UA UL 10000 1) ExactIn = Some (10000, 9859) /\
  outcome pw1 client2 (params MA LP UA UL 10000 1) ExactIn = Ok (10000, 9859) /\
  quoted client2 (params LP MB UL UB 10000 1) ExactIn = Some (10000, 5070) /\
  outcome pw1 client2 (params LP MB UL UB 10000 1) ExactIn = Ok (10000, 5070).
Proof.
  split; [|vm_compute; repeat split].
  assert (H : match the_pool W8 with Some ps => is_rebalancing ps = 0 /\ is_disabled ps = 0 | None => False end)
    by (vm_compute; auto).
  unfold pool_active. destruct (the_pool W8) as [ps|]; [|tauto]. eauto.
Qed.

(** The redeemer and the depositor of the case are funded, and the pool is far from outgrowing. *)
Example C25_case_exit : exists q, quote_full ref_ratio_lib client2 ExactIn LP MB 10000 = Ok q /\ q_out_amount q = 5070 /\
  funded W8 (params LP MB UL UB 10000 1) q /\ option_map lp_token_mint (the_pool W8) = Some LP.
Proof.
  destruct (quote_full ref_ratio_lib client2 ExactIn LP MB 10000) as [q|] eqn:Eq; [|vm_compute in Eq; discriminate].
  exists q. assert (Hq : (q_in_amount q, q_out_amount q) = (10000, 5070)) by (vm_compute in Eq; injection Eq as <-; reflexivity).
  injection Hq as Hi Ho. split; [reflexivity|]. split; [exact Ho|]. split; [|vm_compute; reflexivity].
  unfold funded. cbn [params p_source_mint p_destination_mint p_source_token_account p_destination_token_account p_authority].
  split; [|split; [|split; [apply W8_sound; auto|split; [apply W8_sound; auto|]]]].
  - rewrite Hi. destruct (w_tok W8 UL) as [t|] eqn:Et; [|vm_compute in Et; discriminate]. exists t. split; [reflexivity|].
    assert (H : option_map (fun t => (ta_mint t, ta_owner t, 10000 <=? ta_amount t)) (w_tok W8 UL) = Some (LP, USER, true))
      by (vm_compute; reflexivity).
    rewrite Et in H. cbn [option_map] in H. injection H as H1 H2 H3. apply Z.leb_le in H3.
    repeat split; auto; vm_compute; reflexivity.
  - destruct (w_tok W8 UB) as [t|] eqn:Et; [|vm_compute in Et; discriminate]. exists t. split; [reflexivity|].
    assert (H : option_map ta_mint (w_tok W8 UB) = Some MB) by (vm_compute; reflexivity).
    rewrite Et in H. cbn [option_map] in H. injection H as H1. split; [exact H1|]. vm_compute; reflexivity.
  - intros ps Hps Hd. exfalso. assert (H : option_map lp_token_mint (the_pool W8) = Some LP) by (vm_compute; reflexivity).
    rewrite Hps in H. cbn [option_map] in H. injection H as H. rewrite <- Hd in H. discriminate.
Qed.
