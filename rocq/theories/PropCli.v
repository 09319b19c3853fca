(** C51: the rebalancing commands of the operator's command line tool (cli/s-controller). *)
From Coq Require Import ZArith List Bool Lia.
From Verif Require Import Base Ratio Calc State Controller Inversion ProcInv Spec CalcProofs InvProofs TokProofs
  AccessProofs ShapeProofs MoneyProofs Serde SerdeProofs PropSerde Periph PeriphSpec PeriphProofs PropCalc Client ClientSpec
  ClientProofs PropClient Deploy Known Jup JupSpec JupProofs JupPool JupRefresh Wire WireSpec WireProofs Cli CliSpec CliProofs.
Import ListNotations.
Open Scope Z_scope.

Lemma run_reach D E C w t w' : reachable D w -> pdas_do_not_sign (ti_accs t) -> run D E C w t = Ok w' -> reachable D w'.
Proof.
  intros (w0 & Hg & Hs) Hp H. unfold run, process_instruction in H.
  apply guard_ok in H as (_ & H). apply bind_ok in H as (ix & _ & H).
  exists w0. split; [exact Hg|]. eapply steps_cons; [exact Hs|]. eapply step_controller; eauto.
Qed.

Lemma wrapping_small a b : U64 a -> 0 <= b <= a -> wrapping_sub a b = a - b.
Proof. intros Ha Hb. unfold wrapping_sub. apply Z.mod_small. unfold U64 in Ha. lia. Qed.

Lemma deployed_u64 R dp pw other : ratio_lib_ok R -> deploy_ok dp -> pools_typed pw -> forall w k mint accs x v hi, U64 x ->
  e_lst_to_sol (deployed_env R dp pw other) w (kn_program_id dp k) mint accs x = Ok (v, hi) -> U64 v /\ U64 hi.
Proof.
  intros HR HDp HT w k mint accs x v hi Hx H. cbn [e_lst_to_sol deployed_env] in H. unfold calc_answer in H.
  destruct (wsol_or_program dp HDp k) as [->|(cfg & Hc & E)].
  - rewrite (wsol_known dp HDp) in H. unfold wsol_process in H. apply guard_ok in H as (_ & H). unfold wsol_lst_to_sol in H.
    injection H as <- <-. auto.
  - rewrite E, (calc_cfg_known dp HDp), Hc in H. apply bind_ok in H as ((q & r) & H & Hr). apply of_option_ok in Hr. subst r.
    apply (calc_answer_u64 R HR cfg pw _ _ _ _ HT) in H; [exact H|]. cbn. apply u64b_t. exact Hx.
Qed.

Lemma wsol_suffix : suffix_ok 1 [ro WSOL_MINT].
Proof. unfold suffix_ok, len, U8_MAX. cbn [length]. lia. Qed.

Section Commands.
Context (R : RatioLib) (dp : Deploy) (D : Derive) (lsts : list SanctumLst) (w : World) (pw : PWorld)
  (l : list LstState) (ps : PoolState) (TS : tool_setting R dp D lsts w pw l ps).

(** What [rebal_withdraw_sol] did, for both theorems about it. *)
Lemma withdraw_sol_core S auth withdraw_to lst amt withdrawn avail p other C w1 :
  cli_spool dp D lsts l ps (pw_epoch pw) (sl_mint lst) WSOL_MINT [] (chain_account w pw) = Ok S ->
  In lst lsts -> sl_mint lst <> WSOL_MINT -> U64 amt ->
  rebal_withdraw_sol dp D S auth withdraw_to lst amt withdrawn avail = Ok p ->
  pdas_do_not_sign (ti_accs (pl_start p)) ->
  run D (deployed_env R dp pw other) C w (pl_start p) = Ok w1 ->
  exists j vs0 vs1 x,
    listed_at w j WSOL_MINT (dp_wsol dp) /\ recorded w1 j = balance w (reserves_of D w WSOL_MINT) /\
    balance w1 (reserves_of D w WSOL_MINT) = balance w (reserves_of D w WSOL_MINT) /\
    0 <= x <= vs1 /\ vs0 - x <= withdrawn + pl_subsidy p /\
    (withdraw_to <> reserves_of D w (sl_mint lst) -> 0 < pl_subsidy p -> vs0 - vs1 = withdrawn + pl_subsidy p) /\
    total w1 + vs0 - vs1 <= U64_MAX /\
    forall pw' other' C' w2, others D w1 w2 -> exists w3,
      run D (deployed_env R dp pw' other') C' w2 (pl_end p) =
      end_outcome (Ok (balance w2 (reserves_of D w WSOL_MINT), balance w2 (reserves_of D w WSOL_MINT))) (total w1)
        (recorded w1 j) (vs0 - vs1) w3.
Proof.
  intros HS Hin Hne Ha Hp Hsig Hrun. unfold rebal_withdraw_sol in Hp.
  destruct (fetched_pool R dp D lsts w pw l ps TS _ _ _ _ HS) as (F1 & F2 & F3).
  apply bind_ok in Hp as ([] & _ & Hp). apply bind_ok in Hp as ((ls & ld) & Hf & Hp).
  apply bind_ok in Hp as (bal & Hbal & Hp). apply of_option_ok in Hbal.
  apply bind_ok in Hp as (init & Hi & Hp). apply bind_ok in Hp as (aft & Haft & Hp).
  cbn zeta in Hp. apply bind_ok in Hp as ([] & _ & Hp). apply bind_ok in Hp as (accs & Hac & Hp). apply of_option_ok in Hac.
  apply bind_ok in Hp as ((t & e) & Hix & [= <-]). cbn [pl_start pl_subsidy pl_end] in *.
  rewrite F3 in Hi, Haft.
  unfold kn_lst_to_sol in Hi, Haft. apply bind_ok in Hi as (c & Hk & Hi). rewrite Hk in Haft. cbn [bind] in Haft.
  destruct (fetched_lst R dp D lsts w pw l ps TS _ _ _ _ lst ls ld c HS Hin (or_introl eq_refl) Hf Hk) as (G1 & G2 & G3 & G4 & G5).
  rewrite G4 in Hac. injection Hac as <-.
  pose proof (es_reserves _ _ _ _ _ _ G3) as Er. rewrite Er in Hbal. injection Hbal as <-. rewrite G2 in *.
  pose proof (kn_calc_typed dp pw (ts_typed _ _ _ _ _ _ _ _ TS) _ _ (es_pool _ _ _ _ _ _ G3) Hk) as Hty.
  destruct (plan_core R dp D lsts w pw l ps TS S withdraw_to (sl_mint lst) (sl_token_program lst) WSOL_MINT SPL_TOKEN_ID amt
    _ _ t e _ C w1 F1 F2 Hne G5 (eq_sym (ts_native _ _ _ _ _ _ _ _ TS)) (ix_accounts_ok dp _)
    wsol_suffix Ha Hix Hsig Hrun)
    as (i & j & cs & cd & wb & wc & vs0 & hs0 & vd0 & hd0 & vs1 & hs1 & L1 & L2 & Hle & Q1 & Q2 & Q3 & U1 & U2 & U3 & R1 & B1 & T1 & T2 & He).
  set (rs := reserves_of D w (sl_mint lst)) in *. set (rd := reserves_of D w WSOL_MINT) in *.
  pose proof (wsol_calc R dp D lsts w pw l ps TS _ _ L2) as Ed. subst cd.
  pose proof (listed_calc R dp D lsts w pw l ps TS _ _ _ _ L1 G1 G2) as Ec. rewrite <- (es_calc _ _ _ _ _ _ G3) in Ec. subst cs.
  pose proof (es_mint _ _ _ _ _ _ G3) as Em. rewrite G2 in Em. rewrite <- Em in Q1, Q3.
  fold (ask_l2s R dp pw other w (ld_calc ld) (balance w rs)) in Q1.
  fold (ask_l2s R dp pw other wc (ld_calc ld) (balance w rs - amt + on rs withdraw_to amt)) in Q3.
  destruct (known_env R dp pw other (ts_typed _ _ _ _ _ _ _ _ TS) (ts_deploy _ _ _ _ _ _ _ _ TS) _ _ _ _ (es_pool _ _ _ _ _ _ G3) Q1)
    as (c' & Hk' & _ & Hask). rewrite Hk in Hk'. injection Hk' as <-. rewrite Hask in Q1, Q3.
  cbn [skipn] in Q2, He. rewrite wsol_env in Q2. injection Q2 as <- <-.
  pose proof (balance_u64 D w rs (ts_derive _ _ _ _ _ _ _ _ TS) (ts_reach _ _ _ _ _ _ _ _ TS)) as Ub.
  apply calc_lst_to_sol_exact in Q1 as (An0 & [= -> ->]); [|exact Hty|lia].
  assert (0 <= on rs withdraw_to amt) by (unfold on; destruct (_ =? _); lia).
  apply calc_lst_to_sol_exact in Q3 as (An1 & [= -> ->]); [|exact Hty|lia].
  apply calc_lst_to_sol_exact in Hi as (_ & ->); [|exact Hty|lia].
  rewrite (wrapping_small _ _ Ub Hle) in Haft.
  apply calc_lst_to_sol_exact in Haft as (_ & ->); [|exact Hty|lia]. cbn [fst] in *.
  pose proof (answers_fee _ _ An0) as Hfee.
  pose proof (worth_mono c (balance w rs - amt) (balance w rs) Hty Hfee ltac:(lia)) as M1.
  pose proof (worth_mono c (balance w rs - amt) (balance w rs - amt + on rs withdraw_to amt) Hty Hfee ltac:(lia)) as M2.
  pose proof (worth_nonneg c (balance w rs - amt) Hty Hfee ltac:(lia)) as M0.
  rewrite (wrapping_small _ (worth c (balance w rs - amt)) U1 (conj M0 M1)) in *.
  exists j, (worth c (balance w rs)), (worth c (balance w rs - amt + on rs withdraw_to amt)), (worth c (balance w rs - amt)).
  split; [exact L2|]. split; [exact R1|]. split; [exact B1|]. split; [lia|].
  split; [apply sat_sub_ge|]. split.
  { intros Hnw Hpos. assert (on rs withdraw_to amt = 0) as -> by (unfold on; destruct (Z.eqb_spec withdraw_to rs), (Z.eqb_spec rs withdraw_to); lia || congruence).
    rewrite Z.add_0_r. unfold sat_sub in *. destruct (_ <=? _); lia. }
  split; [exact T1|]. intros pw' other' C' w2 Ho. destruct (He w2 (deployed_env R dp pw' other') C' Ho) as (wz & w3 & _ & Hr).
  exists w3. rewrite Hr, wsol_env, R1. reflexivity.
Qed.

(* ------------------------------------------------------------------ *)
(** * rebal-withdraw-sol: the LST becomes wSOL *)

(** Once the start the command built has gone through, putting what the stake pool paid out and the subsidy the command
    computed into the wSOL reserves is enough: whatever else happened in between, and whatever the stake pools and other
    programs are then, the end the command built is not refused for missing value. *)
Theorem C51_withdraw_sol S auth withdraw_to lst amt withdrawn avail p other C w1 :
  cli_spool dp D lsts l ps (pw_epoch pw) (sl_mint lst) WSOL_MINT [] (chain_account w pw) = Ok S ->
  In lst lsts -> sl_mint lst <> WSOL_MINT -> U64 amt ->
  rebal_withdraw_sol dp D S auth withdraw_to lst amt withdrawn avail = Ok p ->
  pdas_do_not_sign (ti_accs (pl_start p)) ->
  run D (deployed_env R dp pw other) C w (pl_start p) = Ok w1 ->
  let reserves := reserves_of D w WSOL_MINT in
  exists j, listed_at w j WSOL_MINT (dp_wsol dp) /\
    forall w2 pw' other' C', others D w1 w2 ->
      balance w reserves + withdrawn + pl_subsidy p <= balance w2 reserves ->
      ended_wsol w2 j reserves (run D (deployed_env R dp pw' other') C' w2 (pl_end p)).
Proof.
  intros HS Hin Hne Ha Hp Hsig Hrun rd.
  destruct (withdraw_sol_core S auth withdraw_to lst amt withdrawn avail p other C w1 HS Hin Hne Ha Hp Hsig Hrun)
    as (j & vs0 & vs1 & x & L & Rj & Bj & Hx & Hs & _ & Ht & He). fold rd in Rj, Bj, He.
  exists j. split; [exact L|]. intros w2 pw' other' C' Ho Hb.
  destruct (others_totals D w1 w2 Ho) as (Et & Er).
  assert (Hr2 : reachable D w2) by (eapply others_reach; [eapply run_reach; [apply TS|exact Hsig|exact Hrun]|exact Ho]).
  pose proof (balance_u64 D w2 rd (ts_derive _ _ _ _ _ _ _ _ TS) Hr2) as Ub.
  destruct (He pw' other' C' w2 Ho) as (w3 & ->). unfold ended_wsol, end_outcome. rewrite Et, Er.
  assert (u64b (balance w2 rd) = true) as -> by (apply u64b_t; exact Ub). cbn [andb negb].
  destruct (_ <? _); [reflexivity|].
  assert ((balance w2 rd - recorded w1 j <? vs0 - vs1) = false) as ->; [|eauto].
  apply Z.ltb_ge. rewrite Rj. clear -Hb Hs Hx. lia.
Qed.

(** The subsidy is the least possible: one that is not zero cannot be reduced. (When the withdrawn LST goes back into
    the pool's own reserves nothing is owed at all.) *)
Theorem C51_withdraw_sol_least S auth withdraw_to lst amt withdrawn avail p other C w1 :
  cli_spool dp D lsts l ps (pw_epoch pw) (sl_mint lst) WSOL_MINT [] (chain_account w pw) = Ok S ->
  In lst lsts -> sl_mint lst <> WSOL_MINT -> U64 amt ->
  rebal_withdraw_sol dp D S auth withdraw_to lst amt withdrawn avail = Ok p ->
  pdas_do_not_sign (ti_accs (pl_start p)) ->
  run D (deployed_env R dp pw other) C w (pl_start p) = Ok w1 ->
  withdraw_to <> reserves_of D w (sl_mint lst) -> 0 < pl_subsidy p ->
  let reserves := reserves_of D w WSOL_MINT in
  forall w2 pw' other' C', others D w1 w2 ->
    balance w2 reserves < balance w reserves + withdrawn + pl_subsidy p ->
    run D (deployed_env R dp pw' other') C' w2 (pl_end p) = Err (Ctl PoolWouldLoseSolValue).
Proof.
  intros HS Hin Hne Ha Hp Hsig Hrun Hwt Hpos rd w2 pw' other' C' Ho Hb.
  destruct (withdraw_sol_core S auth withdraw_to lst amt withdrawn avail p other C w1 HS Hin Hne Ha Hp Hsig Hrun)
    as (j & vs0 & vs1 & x & L & Rj & Bj & Hx & _ & Hs & Ht & He). fold rd in Rj, Bj, He. specialize (Hs Hwt Hpos).
  assert (Hr2 : reachable D w2) by (eapply others_reach; [eapply run_reach; [apply TS|exact Hsig|exact Hrun]|exact Ho]).
  pose proof (balance_u64 D w2 rd (ts_derive _ _ _ _ _ _ _ _ TS) Hr2) as Ub.
  destruct (He pw' other' C' w2 Ho) as (w3 & ->). unfold end_outcome.
  assert (u64b (balance w2 rd) = true) as -> by (apply u64b_t; exact Ub). cbn [andb negb].
  assert ((U64_MAX <? total w1 - recorded w1 j + balance w2 rd) = false) as -> by (apply Z.ltb_ge; rewrite Rj; clear -Hb Hs Ht; lia).
  assert ((balance w2 rd - recorded w1 j <? vs0 - vs1) = true) as -> by (apply Z.ltb_lt; rewrite Rj; clear -Hb Hs; lia).
  reflexivity.
Qed.

(* ------------------------------------------------------------------ *)
(** * rebal-stake: one LST becomes another *)

Lemma raise_ok fuel epoch k required b e : 0 <= b -> raise fuel epoch k required b = Ok e ->
  0 <= e /\ exists v, kn_lst_to_sol epoch k e = Ok v /\ required <= fst v.
Proof.
  revert b. induction fuel as [|f IH]; intros b Hb H; cbn [raise] in H; apply bind_ok in H as (v & Hv & H);
    destruct (Z.ltb_spec (fst v) required) as [Hlt|Hge]; try discriminate.
  - injection H as <-. eauto.
  - apply IH in H; [exact H|]. unfold wrapping_add. apply Z.mod_pos_bound. reflexivity.
  - injection H as <-. eauto.
Qed.
Lemma synced_value epoch ps0 ls ld ps1 ls1 b : apply_sync_sol_value epoch ps0 ls ld = Ok (ps1, ls1, b) ->
  ld_reserves ld = Some b /\ exists v, kn_lst_to_sol epoch (ld_calc ld) b = Ok v /\ sol_value ls1 = fst v.
Proof.
  intros H. unfold apply_sync_sol_value in H. apply bind_ok in H as (b0 & Hb & H). apply of_option_ok in Hb.
  apply bind_ok in H as (v & Hv & H). apply bind_ok in H as ((ps' & ls') & Hs & H). injection H as <- <- <-.
  split; [exact Hb|]. exists v. split; [exact Hv|]. unfold sync_sol_value_with_retval in Hs.
  apply bind_ok in Hs as (x & _ & Hs). apply bind_ok in Hs as (y & _ & [= <- <-]). reflexivity.
Qed.

(** Once the start the command built has gone through, putting the tokens the stake pool minted and the subsidy the
    command computed into the destination's reserves is enough, as long as the stake pools' part of the transaction left
    the destination LST worth no less. *)
Theorem C51_stake more S fuel auth withdraw_to from to amt tokens_out avail p other C w1 :
  cli_spool dp D lsts l ps (pw_epoch pw) (sl_mint from) (sl_mint to) more (chain_account w pw) = Ok S ->
  In from lsts -> In to lsts -> sl_mint from <> sl_mint to -> U64 amt ->
  rebal_stake R dp D fuel S auth withdraw_to from to amt tokens_out avail = Ok p ->
  pdas_do_not_sign (ti_accs (pl_start p)) ->
  run D (deployed_env R dp pw other) C w (pl_start p) = Ok w1 ->
  let reserves := reserves_of D w (sl_mint to) in
  exists j calc metas, listed_at w j (sl_mint to) calc /\ calc_accounts_of dp to = Some metas /\
    forall w2 pw' other' C', others D w1 w2 -> pools_typed pw' ->
      not_worth_less (deployed_env R dp pw other) (deployed_env R dp pw' other') calc (sl_mint to) (skipn 1 metas) ->
      balance w reserves + tokens_out + pl_subsidy p <= balance w2 reserves ->
      ended (deployed_env R dp pw' other') w2 j calc (sl_mint to) (skipn 1 metas) reserves
        (run D (deployed_env R dp pw' other') C' w2 (pl_end p)).
Proof.
  intros HS Hin Hin' Hne Ha Hp Hsig Hrun rd. unfold rebal_stake in Hp.
  destruct (fetched_pool R dp D lsts w pw l ps TS _ _ _ _ HS) as (F1 & F2 & F3).
  apply bind_ok in Hp as ([] & _ & Hp). apply bind_ok in Hp as (ps0 & Hps & Hp).
  apply bind_ok in Hp as ((fls & fld) & Hf & Hp). apply bind_ok in Hp as ((tls & tld) & Ht & Hp).
  apply bind_ok in Hp as (((ps1 & fls1) & fbal) & Hy & Hp). apply bind_ok in Hp as (((ps2 & tls1) & tbal) & Hy' & Hp).
  apply bind_ok in Hp as (lft & Hleft & Hp). cbn zeta in Hp.
  apply bind_ok in Hp as (guess & Hg & Hp). apply bind_ok in Hp as (ending & Hr & Hp).
  apply bind_ok in Hp as ([] & _ & Hp). apply bind_ok in Hp as (fa & Hfa & Hp). apply of_option_ok in Hfa.
  apply bind_ok in Hp as (ta & Hta & Hp). apply of_option_ok in Hta.
  apply bind_ok in Hp as ((t & e) & Hix & [= <-]). cbn [pl_start pl_subsidy pl_end] in *.
  rewrite F3 in *.
  apply synced_value in Hy as (Hb & v0 & Hv0 & Ev0). apply synced_value in Hy' as (Hb' & v0' & Hv0' & Ev0').
  unfold kn_lst_to_sol in Hv0, Hv0', Hleft. unfold kn_sol_to_lst in Hg.
  apply bind_ok in Hv0 as (c & Hk & Hv0). rewrite Hk in Hleft. cbn [bind] in Hleft.
  apply bind_ok in Hv0' as (c' & Hk' & Hv0'). rewrite Hk' in Hg. cbn [bind] in Hg.
  destruct (fetched_lst R dp D lsts w pw l ps TS _ _ _ _ from fls fld c HS Hin (or_introl eq_refl) Hf Hk) as (G1 & G2 & G3 & G4 & G5).
  destruct (fetched_lst R dp D lsts w pw l ps TS _ _ _ _ to tls tld c' HS Hin' (or_intror eq_refl) Ht Hk') as (G1' & G2' & G3' & G4' & G5').
  rewrite G4 in Hfa. injection Hfa as <-. rewrite G4' in Hta. injection Hta as <-.
  pose proof (es_reserves _ _ _ _ _ _ G3) as Er. rewrite Er in Hb. injection Hb as <-. rewrite G2 in *.
  pose proof (es_reserves _ _ _ _ _ _ G3') as Er'. rewrite Er' in Hb'. injection Hb' as <-. rewrite G2' in *.
  pose proof (kn_calc_typed dp pw (ts_typed _ _ _ _ _ _ _ _ TS) _ _ (es_pool _ _ _ _ _ _ G3) Hk) as Hty.
  pose proof (kn_calc_typed dp pw (ts_typed _ _ _ _ _ _ _ _ TS) _ _ (es_pool _ _ _ _ _ _ G3') Hk') as Hty'.
  destruct (plan_core R dp D lsts w pw l ps TS S withdraw_to (sl_mint from) (sl_token_program from) (sl_mint to) (sl_token_program to) amt
    _ _ t e _ C w1 F1 F2 Hne G5 G5' (ix_accounts_ok dp _) (ix_accounts_ok dp _) Ha Hix Hsig Hrun)
    as (i & j & cs & cd & wb & wc & vs0 & hs0 & vd0 & hd0 & vs1 & hs1 & L1 & L2 & Hle & Q1 & Q2 & Q3 & U1 & U2 & U3 & R1 & B1 & T1 & T2 & He).
  set (rs := reserves_of D w (sl_mint from)) in *. fold rd in L2, Q2, R1, B1, He, Hv0', Er', Hr.
  pose proof (listed_calc R dp D lsts w pw l ps TS _ _ _ _ L1 G1 G2) as Ec. rewrite <- (es_calc _ _ _ _ _ _ G3) in Ec. subst cs.
  pose proof (listed_calc R dp D lsts w pw l ps TS _ _ _ _ L2 G1' G2') as Ec. rewrite <- (es_calc _ _ _ _ _ _ G3') in Ec. subst cd.
  pose proof (es_mint _ _ _ _ _ _ G3) as Em. rewrite G2 in Em. rewrite <- Em in Q1, Q3.
  pose proof (es_mint _ _ _ _ _ _ G3') as Em'. rewrite G2' in Em'. rewrite <- Em' in Q2.
  change (ask_l2s R dp pw other w (ld_calc fld) (balance w rs) = Ok (vs0, hs0)) in Q1.
  change (ask_l2s R dp pw other wb (ld_calc tld) (balance w rd) = Ok (vd0, hd0)) in Q2.
  change (ask_l2s R dp pw other wc (ld_calc fld) (balance w rs - amt + on rs withdraw_to amt) = Ok (vs1, hs1)) in Q3.
  pose proof (ts_typed _ _ _ _ _ _ _ _ TS) as HT. pose proof (ts_deploy _ _ _ _ _ _ _ _ TS) as HDp.
  destruct (known_env R dp pw other HT HDp _ _ _ _ (es_pool _ _ _ _ _ _ G3) Q1)
    as (c0 & Hc0 & _ & Hask). rewrite Hk in Hc0. injection Hc0 as <-. rewrite Hask in Q1, Q3.
  destruct (known_env R dp pw other HT HDp _ _ _ _ (es_pool _ _ _ _ _ _ G3') Q2)
    as (c0 & Hc0 & _ & Hask'). rewrite Hk' in Hc0. injection Hc0 as <-. rewrite Hask' in Q2.
  pose proof (balance_u64 D w rs (ts_derive _ _ _ _ _ _ _ _ TS) (ts_reach _ _ _ _ _ _ _ _ TS)) as Ub.
  pose proof (balance_u64 D w rd (ts_derive _ _ _ _ _ _ _ _ TS) (ts_reach _ _ _ _ _ _ _ _ TS)) as Ub'.
  rewrite Q1 in Hv0. injection Hv0 as <-. rewrite Q2 in Hv0'. injection Hv0' as <-. cbn [fst] in Ev0, Ev0'.
  rewrite Ev0, Ev0' in *.
  apply calc_lst_to_sol_exact in Q1 as (An0 & [= -> ->]); [|exact Hty|lia].
  assert (0 <= on rs withdraw_to amt) by (unfold on; destruct (_ =? _); lia).
  apply calc_lst_to_sol_exact in Q3 as (An1 & [= -> ->]); [|exact Hty|lia].
  assert (Ess : sat_sub (balance w rs) amt = balance w rs - amt) by (unfold sat_sub; destruct (Z.leb_spec amt (balance w rs)); lia).
  rewrite Ess in Hleft.
  apply calc_lst_to_sol_exact in Hleft as (_ & ->); [|exact Hty|lia]. cbn [fst] in *.
  pose proof (answers_fee _ _ An0) as Hfee.
  pose proof (worth_mono c (balance w rs - amt) (balance w rs) Hty Hfee ltac:(lia)) as M1.
  pose proof (worth_mono c (balance w rs - amt) (balance w rs - amt + on rs withdraw_to amt) Hty Hfee ltac:(lia)) as M2.
  pose proof (worth_nonneg c (balance w rs - amt) Hty Hfee ltac:(lia)) as M0.
  set (owed := worth c (balance w rs) - worth c (balance w rs - amt)) in *.
  assert (Eo : sat_sub (worth c (balance w rs)) (worth c (balance w rs - amt)) = owed).
  { unfold sat_sub. destruct (Z.leb_spec (worth c (balance w rs - amt)) (worth c (balance w rs))); [reflexivity|lia]. }
  rewrite Eo in *.
  assert (Ereq : saturating_add vd0 owed = vd0 + owed).
  { unfold saturating_add. apply Z.min_l. unfold owed. clear -T2 M0. lia. }
  rewrite Ereq in *.
  apply s2l_u64 in Hg as (_ & Ug); [|apply TS|unfold U64, owed in *; clear -T2 U2 M0 M1; lia].
  apply raise_ok in Hr as (He0 & v2 & Hv2 & Hreq); [|unfold U64 in Ug; lia].
  unfold kn_lst_to_sol in Hv2. rewrite Hk' in Hv2. cbn [bind] in Hv2.
  apply calc_lst_to_sol_exact in Hv2 as (An2 & ->); [|exact Hty'|exact He0]. cbn [fst] in Hreq.
  pose proof (answers_fee _ _ An2) as Hfee'.
  exists j, (kn_program_id dp (ld_calc tld)), (kn_ix_accounts dp (ld_calc tld)).
  split; [exact L2|]. split; [exact G4'|]. intros w2 pw' other' C' Ho Hpt Hnw Hb. fold rd in Hb.
  destruct (others_totals D w1 w2 Ho) as (Et & Erec).
  destruct (He w2 (deployed_env R dp pw' other') C' Ho) as (wz & w3 & Hsame & ->).
  exists wz. split; [exact Hsame|]. unfold end_outcome. rewrite Et, Erec, R1.
  destruct (e_lst_to_sol (deployed_env R dp pw' other') wz (kn_program_id dp (ld_calc tld)) (sl_mint to)
    (skipn 1 (kn_ix_accounts dp (ld_calc tld))) (balance w2 rd)) as [[v hi]|er] eqn:Eans; [|reflexivity].
  destruct (Hnw wz wz _ _ _ Eans) as (vq & hq & Eq & Hvq).
  rewrite <- Em' in Eq. change (ask_l2s R dp pw other wz (ld_calc tld) (balance w2 rd) = Ok (vq, hq)) in Eq. rewrite Hask' in Eq.
  assert (Hr2 : reachable D w2) by (eapply others_reach; [eapply run_reach; [apply TS|exact Hsig|exact Hrun]|exact Ho]).
  pose proof (balance_u64 D w2 rd (ts_derive _ _ _ _ _ _ _ _ TS) Hr2) as Ub2.
  apply calc_lst_to_sol_exact in Eq as (An3 & [= -> ->]); [|exact Hty'|unfold U64 in Ub2; lia].
  pose proof (sat_sub_ge ending (balance w rd)) as S1. pose proof (sat_sub_ge (sat_sub ending (balance w rd)) tokens_out) as S2.
  assert (Hmono : worth c' ending <= worth c' (balance w2 rd)) by (apply worth_mono; [exact Hty'|exact Hfee'|clear -S1 S2 Hb; lia]).
  assert (Huu : u64b v && u64b hi = true).
  { destruct (deployed_u64 R dp pw' other' (ts_ratio _ _ _ _ _ _ _ _ TS) HDp Hpt wz _ _ _ _ _ _ Ub2 Eans) as (Uv & Uh).
    rewrite (u64b_t _ Uv), (u64b_t _ Uh). reflexivity. }
  rewrite Huu. cbn [negb].
  destruct (_ <? _); [reflexivity|].
  assert ((v - vd0 <? worth c (balance w rs) - worth c (balance w rs - amt + on rs withdraw_to amt)) = false) as ->; [|eauto].
  apply Z.ltb_ge. unfold owed in Hreq. clear -Hvq Hmono Hreq M2. lia.
Qed.

(** The search for the destination amount takes at most one step: with more steps allowed the answer is the same. *)
Theorem C51_stake_loop k c required lo hi fuel :
  calc_in_sync dp pw k -> kn_calc (pw_epoch pw) k = Ok c -> calc_live c -> U64 required ->
  kn_sol_to_lst R (pw_epoch pw) k required = Ok (lo, hi) -> hi < U64_MAX ->
  raise (S fuel) (pw_epoch pw) k required hi = raise 1 (pw_epoch pw) k required hi.
Proof.
  intros Hs Hk Hlive Hu Hg Hhi.
  pose proof (kn_calc_typed dp pw (ts_typed _ _ _ _ _ _ _ _ TS) _ _ Hs Hk) as Hty.
  unfold kn_sol_to_lst in Hg. rewrite Hk in Hg. cbn [bind] in Hg.
  destruct (calc_sol_to_lst_bracket R c required lo hi (ts_ratio _ _ _ _ _ _ _ _ TS) Hty Hlive Hu Hg) as (_ & _ & Uh & _ & Hb).
  cbn [raise]. destruct (kn_lst_to_sol (pw_epoch pw) k hi) as [v|e]; [|reflexivity]. cbn [bind].
  destruct (fst v <? required); [|reflexivity].
  assert (wrapping_add hi 1 = hi + 1) as -> by (unfold wrapping_add; apply Z.mod_small; unfold U64 in Uh; lia).
  unfold kn_lst_to_sol. destruct fuel; cbn [raise]; unfold kn_lst_to_sol; rewrite Hk; cbn [bind]; [reflexivity|].
  destruct (calc_lst_to_sol c (hi + 1)) as [v'|e] eqn:E; [|reflexivity]. cbn [bind].
  apply calc_lst_to_sol_exact in E as (An & ->); [|exact Hty|unfold U64 in Uh; lia]. cbn [fst].
  destruct (Z.ltb_spec (worth c (hi + 1)) required) as [Hlt|]; [|reflexivity].
  specialize (Hb (hi + 1) ltac:(unfold U64 in *; lia) An ltac:(lia)). lia.
Qed.

(* ------------------------------------------------------------------ *)
(** * rebal-sol: wSOL becomes an LST *)

Lemma sol_core S auth withdraw_to lst lamports minted avail p other C w1 :
  cli_spool dp D lsts l ps (pw_epoch pw) (sl_mint lst) WSOL_MINT [] (chain_account w pw) = Ok S ->
  In lst lsts -> sl_mint lst <> WSOL_MINT -> U64 lamports ->
  rebal_sol R dp D S auth withdraw_to lst lamports minted avail = Ok p ->
  pdas_do_not_sign (ti_accs (pl_start p)) ->
  run D (deployed_env R dp pw other) C w (pl_start p) = Ok w1 ->
  exists j k c lo hi, calc_in_sync dp pw k /\ kn_calc (pw_epoch pw) k = Ok c /\ calc_typed c /\
    kn_lst_mint dp k = sl_mint lst /\
    calc_accounts_of dp lst = Some (kn_ix_accounts dp k) /\
    listed_at w j (sl_mint lst) (kn_program_id dp k) /\
    calc_sol_to_lst R c lamports = Ok (lo, hi) /\ hi <= minted + pl_subsidy p /\
    (forall w' x, ask_l2s R dp pw other w' k x = calc_lst_to_sol c x) /\
    fee_ok c /\
    forall pw' other' C' w2, others D w1 w2 -> pools_typed pw' ->
      not_worth_less (deployed_env R dp pw other) (deployed_env R dp pw' other') (kn_program_id dp k) (sl_mint lst)
        (skipn 1 (kn_ix_accounts dp k)) ->
      (answers c (balance w2 (reserves_of D w (sl_mint lst))) ->
       worth c (balance w (reserves_of D w (sl_mint lst))) + lamports <= worth c (balance w2 (reserves_of D w (sl_mint lst)))) ->
      ended (deployed_env R dp pw' other') w2 j (kn_program_id dp k) (sl_mint lst) (skipn 1 (kn_ix_accounts dp k))
        (reserves_of D w (sl_mint lst)) (run D (deployed_env R dp pw' other') C' w2 (pl_end p)).
Proof.
  intros HS Hin Hne Ha Hp Hsig Hrun. unfold rebal_sol in Hp.
  destruct (fetched_pool R dp D lsts w pw l ps TS _ _ _ _ HS) as (F1 & F2 & F3).
  apply bind_ok in Hp as ([] & _ & Hp). apply bind_ok in Hp as ((ls & ld) & Hf & Hp).
  apply bind_ok in Hp as ((lo & hi) & Hi & Hp).
  cbn zeta in Hp. cbn [snd] in Hp. apply bind_ok in Hp as ([] & _ & Hp). apply bind_ok in Hp as (accs & Hac & Hp). apply of_option_ok in Hac.
  apply bind_ok in Hp as ((t & e) & Hix & [= <-]). cbn [pl_start pl_subsidy pl_end] in *.
  rewrite F3 in Hi. unfold kn_sol_to_lst in Hi. apply bind_ok in Hi as (c & Hk & Hi).
  destruct (fetched_lst R dp D lsts w pw l ps TS _ _ _ _ lst ls ld c HS Hin (or_introl eq_refl) Hf Hk) as (G1 & G2 & G3 & G4 & G5).
  rewrite G4 in Hac. injection Hac as <-.
  pose proof (ts_typed _ _ _ _ _ _ _ _ TS) as HT. pose proof (ts_deploy _ _ _ _ _ _ _ _ TS) as HDp.
  pose proof (kn_calc_typed dp pw HT _ _ (es_pool _ _ _ _ _ _ G3) Hk) as Hty.
  destruct (plan_core R dp D lsts w pw l ps TS S withdraw_to WSOL_MINT SPL_TOKEN_ID (sl_mint lst) (sl_token_program lst) lamports
    _ _ t e _ C w1 F1 F2 (not_eq_sym Hne) (eq_sym (ts_native _ _ _ _ _ _ _ _ TS)) G5 wsol_suffix (ix_accounts_ok dp _)
    Ha Hix Hsig Hrun)
    as (i & j & cs & cd & wb & wc & vs0 & hs0 & vd0 & hd0 & vs1 & hs1 & L1 & L2 & Hle & Q1 & Q2 & Q3 & U1 & U2 & U3 & R1 & B1 & T1 & T2 & He).
  set (rd := reserves_of D w (sl_mint lst)) in *. set (rs := reserves_of D w WSOL_MINT) in *.
  pose proof (wsol_calc R dp D lsts w pw l ps TS _ _ L1) as Ed. subst cs.
  pose proof (listed_calc R dp D lsts w pw l ps TS _ _ _ _ L2 G1 G2) as Ec. rewrite <- (es_calc _ _ _ _ _ _ G3) in Ec. subst cd.
  pose proof (es_mint _ _ _ _ _ _ G3) as Em. rewrite G2 in Em. rewrite <- Em in Q2.
  change (ask_l2s R dp pw other wb (ld_calc ld) (balance w rd) = Ok (vd0, hd0)) in Q2.
  destruct (known_env R dp pw other HT HDp _ _ _ _ (es_pool _ _ _ _ _ _ G3) Q2)
    as (c' & Hk' & _ & Hask). rewrite Hk in Hk'. injection Hk' as <-. rewrite Hask in Q2.
  cbn [skipn] in Q1, Q3. rewrite wsol_env in Q1, Q3. injection Q1 as <- <-. injection Q3 as <- <-.
  pose proof (balance_u64 D w rd (ts_derive _ _ _ _ _ _ _ _ TS) (ts_reach _ _ _ _ _ _ _ _ TS)) as Ub.
  apply calc_lst_to_sol_exact in Q2 as (An0 & [= -> ->]); [|exact Hty|unfold U64 in Ub; lia].
  exists j, (ld_calc ld), c, lo, hi. split; [exact (es_pool _ _ _ _ _ _ G3)|]. split; [exact Hk|]. split; [exact Hty|].
  split; [exact Em|]. split; [exact G4|]. split; [exact L2|]. split; [exact Hi|].
  split; [apply sat_sub_ge|]. split; [exact Hask|]. split; [exact (answers_fee _ _ An0)|].
  intros pw' other' C' w2 Ho Hpt Hnw Hgain.
  destruct (others_totals D w1 w2 Ho) as (Et & Erec).
  destruct (He w2 (deployed_env R dp pw' other') C' Ho) as (wz & w3 & Hsame & ->).
  exists wz. split; [exact Hsame|]. unfold end_outcome. rewrite Et, Erec, R1.
  destruct (e_lst_to_sol (deployed_env R dp pw' other') wz (kn_program_id dp (ld_calc ld)) (sl_mint lst)
    (skipn 1 (kn_ix_accounts dp (ld_calc ld))) (balance w2 rd)) as [[v h]|er] eqn:Eans; [|reflexivity].
  destruct (Hnw wz wz _ _ _ Eans) as (vq & hq & Eq & Hvq).
  rewrite <- Em in Eq. change (ask_l2s R dp pw other wz (ld_calc ld) (balance w2 rd) = Ok (vq, hq)) in Eq. rewrite Hask in Eq.
  assert (Hr2 : reachable D w2) by (eapply others_reach; [eapply run_reach; [apply TS|exact Hsig|exact Hrun]|exact Ho]).
  pose proof (balance_u64 D w2 rd (ts_derive _ _ _ _ _ _ _ _ TS) Hr2) as Ub2.
  apply calc_lst_to_sol_exact in Eq as (An3 & [= -> ->]); [|exact Hty|unfold U64 in Ub2; lia].
  specialize (Hgain An3).
  assert (Huu : u64b v && u64b h = true).
  { destruct (deployed_u64 R dp pw' other' (ts_ratio _ _ _ _ _ _ _ _ TS) HDp Hpt wz _ _ _ _ _ _ Ub2 Eans) as (Uv & Uh).
    rewrite (u64b_t _ Uv), (u64b_t _ Uh). reflexivity. }
  rewrite Huu. cbn [negb].
  destruct (_ <? _); [reflexivity|].
  assert (0 <= on rs withdraw_to lamports) by (unfold on; destruct (_ =? _); unfold U64 in Ha; lia).
  match goal with |- context [if ?b then Err (Ctl PoolWouldLoseSolValue) else _] => assert (b = false) as ->; [|eauto] end.
  apply Z.ltb_ge. clear -Hvq Hgain H. lia.
Qed.

(** Once the start the command built has gone through, putting what the stake pool minted, the subsidy the command
    computed {e and one more token unit} into the LST's reserves is enough, as long as the stake pool's part of the
    transaction left the LST worth no less. *)
Theorem C51_sol S auth withdraw_to lst lamports minted avail p other C w1 :
  cli_spool dp D lsts l ps (pw_epoch pw) (sl_mint lst) WSOL_MINT [] (chain_account w pw) = Ok S ->
  In lst lsts -> sl_mint lst <> WSOL_MINT -> U64 lamports ->
  rebal_sol R dp D S auth withdraw_to lst lamports minted avail = Ok p ->
  pdas_do_not_sign (ti_accs (pl_start p)) ->
  run D (deployed_env R dp pw other) C w (pl_start p) = Ok w1 ->
  let reserves := reserves_of D w (sl_mint lst) in
  exists j k metas, listed_at w j (sl_mint lst) (kn_program_id dp k) /\ calc_accounts_of dp lst = Some metas /\
    calc_in_sync dp pw k /\ kn_lst_mint dp k = sl_mint lst /\
    ((forall c, kn_calc (pw_epoch pw) k = Ok c -> calc_live c) ->
    forall w2 pw' other' C', others D w1 w2 -> pools_typed pw' ->
      not_worth_less (deployed_env R dp pw other) (deployed_env R dp pw' other') (kn_program_id dp k) (sl_mint lst) (skipn 1 metas) ->
      balance w reserves + minted + pl_subsidy p + 1 <= balance w2 reserves ->
      ended (deployed_env R dp pw' other') w2 j (kn_program_id dp k) (sl_mint lst) (skipn 1 metas) reserves
        (run D (deployed_env R dp pw' other') C' w2 (pl_end p))).
Proof.
  intros HS Hin Hne Ha Hp Hsig Hrun rd.
  destruct (sol_core S auth withdraw_to lst lamports minted avail p other C w1 HS Hin Hne Ha Hp Hsig Hrun)
    as (j & k & c & lo & hi & Hsync & Hk & Hty & Em & Hac & L & Hi & Hhi & Hask & Hfee & He).
  exists j, k, (kn_ix_accounts dp k). split; [exact L|]. split; [exact Hac|]. split; [exact Hsync|]. split; [exact Em|].
  intros Hlv w2 pw' other' C' Ho Hpt Hnw Hb. specialize (Hlv c Hk).
  apply (He pw' other' C' w2 Ho Hpt Hnw). fold rd. intros An.
  destruct (calc_sol_to_lst_bracket R c lamports lo hi (ts_ratio _ _ _ _ _ _ _ _ TS) Hty Hlv Ha Hi) as (_ & _ & Uh & _ & Hbr).
  pose proof (balance_u64 D w rd (ts_derive _ _ _ _ _ _ _ _ TS) (ts_reach _ _ _ _ _ _ _ _ TS)) as Ub.
  assert (Hr2 : reachable D w2) by (eapply others_reach; [eapply run_reach; [apply TS|exact Hsig|exact Hrun]|exact Ho]).
  pose proof (balance_u64 D w2 rd (ts_derive _ _ _ _ _ _ _ _ TS) Hr2) as Ub2.
  assert (An1 : answers c (hi + 1)) by (eapply answers_down; [exact Hty| |exact An]; unfold U64 in *; clear -Hb Hhi Ub; lia).
  assert (Hmore : lamports < worth c (hi + 1)).
  { destruct (Z_lt_le_dec lamports (worth c (hi + 1))) as [|Hle]; [assumption|].
    specialize (Hbr (hi + 1) ltac:(unfold U64 in *; clear -Hb Hhi Ub Ub2 Uh; lia) An1 Hle). clear -Hbr; lia. }
  pose proof (worth_super c (balance w rd) (hi + 1) Hty Hfee) as Hsup.
  pose proof (worth_mono c (balance w rd + (hi + 1)) (balance w2 rd) Hty Hfee ltac:(clear -Hb Hhi; lia)) as Hm.
  clear -Hsup Hm Hmore. destruct c; lia.
Qed.

(** Without the one more, it is enough if the required amount the command computed is itself worth the lamports taken
    out, except for Marinade's LST, whose fee rounds on its own. *)
Theorem C51_sol_exact S auth withdraw_to lst lamports minted avail p other C w1 :
  cli_spool dp D lsts l ps (pw_epoch pw) (sl_mint lst) WSOL_MINT [] (chain_account w pw) = Ok S ->
  In lst lsts -> sl_mint lst <> WSOL_MINT -> U64 lamports ->
  rebal_sol R dp D S auth withdraw_to lst lamports minted avail = Ok p ->
  pdas_do_not_sign (ti_accs (pl_start p)) ->
  run D (deployed_env R dp pw other) C w (pl_start p) = Ok w1 ->
  let reserves := reserves_of D w (sl_mint lst) in
  exists j k metas, listed_at w j (sl_mint lst) (kn_program_id dp k) /\ calc_accounts_of dp lst = Some metas /\
    calc_in_sync dp pw k /\ kn_lst_mint dp k = sl_mint lst /\
    ((forall p, k <> KnMarinade p) ->
     (forall lo hi, kn_sol_to_lst R (pw_epoch pw) k lamports = Ok (lo, hi) ->
        exists v hv, kn_lst_to_sol (pw_epoch pw) k hi = Ok (v, hv) /\ lamports <= v) ->
    forall w2 pw' other' C', others D w1 w2 -> pools_typed pw' ->
      not_worth_less (deployed_env R dp pw other) (deployed_env R dp pw' other') (kn_program_id dp k) (sl_mint lst) (skipn 1 metas) ->
      balance w reserves + minted + pl_subsidy p <= balance w2 reserves ->
      ended (deployed_env R dp pw' other') w2 j (kn_program_id dp k) (sl_mint lst) (skipn 1 metas) reserves
        (run D (deployed_env R dp pw' other') C' w2 (pl_end p))).
Proof.
  intros HS Hin Hne Ha Hp Hsig Hrun rd.
  destruct (sol_core S auth withdraw_to lst lamports minted avail p other C w1 HS Hin Hne Ha Hp Hsig Hrun)
    as (j & k & c & lo & hi & Hsync & Hk & Hty & Em & Hac & L & Hi & Hhi & Hask & Hfee & He).
  exists j, k, (kn_ix_accounts dp k). split; [exact L|]. split; [exact Hac|]. split; [exact Hsync|]. split; [exact Em|].
  intros Hnm Hx w2 pw' other' C' Ho Hpt Hnw Hb.
  apply (He pw' other' C' w2 Ho Hpt Hnw). fold rd. intros An.
  destruct (Hx lo hi) as (v & hv & Hv & Hge). { unfold kn_sol_to_lst. rewrite Hk. exact Hi. }
  unfold kn_lst_to_sol in Hv. rewrite Hk in Hv. cbn [bind] in Hv.
  apply s2l_u64 in Hi as (_ & Uh); [|apply TS|exact Ha]. cbn [snd] in Uh.
  apply calc_lst_to_sol_exact in Hv as (_ & [= -> ->]); [|exact Hty|unfold U64 in Uh; clear -Uh; lia].
  pose proof (worth_super c (balance w rd) hi Hty Hfee) as Hsup.
  pose proof (worth_mono c (balance w rd + hi) (balance w2 rd) Hty Hfee ltac:(clear -Hb Hhi; lia)) as Hm.
  assert (Hz : match c with CMarinade _ => 1 | _ => 0 end = 0).
  { destruct c as [| | |m]; try reflexivity. exfalso. destruct k as [o|o|s m' q o|]; cbn [kn_calc] in Hk.
    - apply bind_ok in Hk as (x & _ & Hk). apply guard_ok in Hk as (_ & Hk). discriminate.
    - apply (Hnm o). reflexivity.
    - apply bind_ok in Hk as (x & _ & Hk). apply guard_ok in Hk as (_ & Hk). discriminate.
    - discriminate. }
  clear -Hsup Hm Hge Hz. lia.
Qed.

(* ------------------------------------------------------------------ *)
(** * What the commands refuse *)

(** None of them builds anything unless it was given the rebalance authority and the payer holds the subsidy. *)
Lemma check_subsidy_ok subsidy avail : check_subsidy subsidy avail = Ok tt -> subsidy = 0 \/ subsidy <= avail.
Proof. unfold check_subsidy. intros H. apply guard_ok in H as (H & _). apply orb_true_iff in H as [H|H]; lia. Qed.
Lemma sat_sub_nonneg a b : 0 <= sat_sub a b.
Proof. unfold sat_sub. destruct (_ <=? _) eqn:E; lia. Qed.
Lemma auth_checked S auth : jp_pool S = Some ps -> check_rebalance_auth S auth = Ok tt -> auth = rebalance_authority ps.
Proof.
  intros Hp H. unfold check_rebalance_auth, jp_pool_state in H. rewrite Hp in H. cbn [bind of_option] in H.
  apply guard_ok in H as (H & _). now apply Z.eqb_eq in H.
Qed.
Theorem C51_refusals a b more S fuel auth withdraw_to from to amt quoted avail p :
  cli_spool dp D lsts l ps (pw_epoch pw) a b more (chain_account w pw) = Ok S ->
  rebal_sol R dp D S auth withdraw_to to amt quoted avail = Ok p \/
  rebal_withdraw_sol dp D S auth withdraw_to from amt quoted avail = Ok p \/
  rebal_stake R dp D fuel S auth withdraw_to from to amt quoted avail = Ok p ->
  auth = rebalance_authority ps /\ 0 <= pl_subsidy p /\ (pl_subsidy p = 0 \/ pl_subsidy p <= avail).
Proof.
  intros HS Hp. destruct (fetched_pool R dp D lsts w pw l ps TS _ _ _ _ HS) as (_ & Hps & _).
  destruct Hp as [Hp|[Hp|Hp]]; unfold rebal_sol, rebal_withdraw_sol, rebal_stake in Hp;
    apply bind_ok in Hp as ([] & Ha & Hp); (split; [eapply auth_checked; eassumption|]);
    repeat first [ progress cbn beta zeta in Hp | apply bind_ok in Hp as (? & ? & Hp) | match type of Hp with (let '(_, _) := ?x in _) = _ => destruct x end ];
    match goal with H : check_subsidy _ _ = Ok ?u |- _ => destruct u; apply check_subsidy_ok in H end;
    injection Hp as <-; cbn [pl_subsidy]; (split; [apply sat_sub_nonneg|assumption]).
Qed.
End Commands.

(** The calculator the tool's file assigns to a known LST (lst_arg.rs:45-52) is the only one with which the quoting
    client will quote it; and the accounts the tool's file gives are the ones that client passes. *)
Theorem C53_file_calculator dp lsts s ls : NoDup (map sl_mint lsts) -> In s lsts -> ls_mint ls = sl_mint s ->
  sl_pool s <> PiSPool ->
  (sol_val_calc_of_sanctum_lst dp s = Some (sol_value_calculator ls) <-> try_lst_data dp lsts ls <> None) /\
  (forall ld w, known_lsts_ok dp w lsts -> try_lst_data dp lsts ls = Some ld ->
     calc_accounts_of dp s = Some (kn_ix_accounts dp (ld_calc ld)) /\ kn_lst_mint dp (ld_calc ld) = sl_mint s).
Proof.
  intros Hn Hin Hm Hsp. unfold try_lst_data. rewrite (find_by_mint lsts s (ls_mint ls) Hn Hin (eq_sym Hm)). split.
  - unfold sol_val_calc_of_sanctum_lst. destruct (sl_pool s) as [| | |wh pool|]; try congruence; [..|destruct wh];
      cbn [kn_program_id spl_cfg];
      match goal with |- context [?a =? ?b] => destruct (Z.eqb_spec a b) as [->|N] end; split;
      first [ discriminate | reflexivity | (intros [= H]; congruence) | (intros H; exfalso; apply H; reflexivity) ].
  - intros ld w Hk H. destruct (Hk s Hin) as (_ & Hkind). unfold calc_accounts_of.
    destruct (sl_pool s) as [| | |wh pool|]; try congruence; destruct (_ =? _) in H; try discriminate;
      injection H as <-; cbn [ld_calc kn_ix_accounts kn_lst_mint spl_cfg]; rewrite ?Hm; try destruct wh; auto.
Qed.
