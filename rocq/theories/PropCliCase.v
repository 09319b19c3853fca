(** Concrete runs of the rebalancing commands (C51): the theorems' hypotheses are met; and a run in which the subsidy
    rebal-sol computes is too small. *)
From Coq Require Import ZArith List Bool Lia.
From Verif Require Import Base Ratio Calc State Controller Inversion ProcInv Spec InvProofs ShapeProofs MoneyProofs
  Serde Periph PeriphSpec PeriphProofs Client ClientSpec ClientProofs PropClient Concrete ConcreteReach
  Deploy Known Jup JupSpec JupProofs JupPool PropJup Cli CliSpec CliProofs PropCli.
Import ListNotations.
Open Scope Z_scope.

(** Three LSTs: [MA], worth 1.5 SOL, [MB], worth 2 SOL less a fee, and wrapped SOL. *)
Definition UW : key := 55.                                          (* the user's wSOL account *)
Definition RW : key := addr POOL_STATE_ID SPL_TOKEN_ID WSOL_MINT.   (* the pool's wSOL reserves *)
Definition FW : key := addr PROTOCOL_FEE_ID SPL_TOKEN_ID WSOL_MINT.
Definition V0 : World := {|
  w_pool := fun _ => None;
  w_list := fun _ => Some [];
  w_auth := fun _ => Some [];
  w_rec := fun _ => None;
  w_tok := at_key UA (Some (mkTok MA USER 10000000))
          (at_key UB (Some (mkTok MB USER 10000000))
          (at_key UW (Some (mkTok WSOL_MINT USER 10000000)) (fun _ => None)));
  w_mint := at_key LP (Some (mkMint 0 9 (Some ADMIN) (Some ADMIN)))
           (at_key MA (Some (mkMint 10000000 9 None None))
           (at_key MB (Some (mkMint 10000000 9 None None))
           (at_key WSOL_MINT (Some (mkMint 10000000 9 None None)) (fun _ => None))));
  w_owner := fun k => if (k =? MB) || (k =? UB) then SPL_TOKEN_2022_ID
                      else if (k =? LP) || (k =? MA) || (k =? UA) || (k =? WSOL_MINT) || (k =? UW) then SPL_TOKEN_ID
                      else SYSTEM_PROGRAM_ID;
  w_exec := fun k => (k =? CA) || (k =? CB) || (k =? 45) || (k =? PP)
|}.
Lemma V0_genesis : genesis D0 V0.
Proof.
  split; [reflexivity|]. split; [reflexivity|]. split; [reflexivity|]. split; [reflexivity|].
  split.
  2:{ intros wallet prog mint bump k _ H. cbn in H. destruct (bump =? 255); [|discriminate].
      injection H as <-. cbn. unfold at_key, upd. split; [reflexivity|]. intros t [=]. }
  split; cbn; unfold at_key, upd; intros k x H;
  repeat match type of H with
         | (if ?b then _ else _) = Some _ => destruct b;
             [injection H as <-; cbn; unfold U64, U64_MAX; lia|] end; discriminate.
Qed.
Definition payer_add (m r f c p : key) :=
  [sg ADMIN; sw USER; ro m; rw r; rw f; rw PROTOCOL_FEE_ID; ro c; ro POOL_STATE_ID;
   rw LST_STATE_LIST_ID; ro ATA_PROGRAM_ID; ro SYSTEM_PROGRAM_ID; ro p].
Definition RV1 := process D0 E0 C0 V0 [sw USER; sg ADMIN; rw POOL_STATE_ID; rw LP; ro SPL_TOKEN_ID; ro SYSTEM_PROGRAM_ID] Initialize.
Definition V1 := get RV1.
Definition RV2 := process D0 E0 C0 V1 (payer_add MA RA FA CA SPL_TOKEN_ID) AddLst.
Definition V2 := get RV2.
Definition RV3 := process D0 E0 C0 V2 (payer_add MB RB FB CB SPL_TOKEN_2022_ID) AddLst.
Definition V3 := get RV3.
Definition RV4 := process D0 E0 C0 V3 (payer_add WSOL_MINT RW FW 45 SPL_TOKEN_ID) AddLst.
Definition V4 := get RV4.
Definition RV5 := transfer_checked V4 SPL_TOKEN_ID UA RA MA USER true 1000.
Definition V5 := get RV5.
Definition RV6 := transfer_checked V5 SPL_TOKEN_2022_ID UB RB MB USER true 5000.
Definition V6 := get RV6.
Definition RV7 := transfer_checked V6 SPL_TOKEN_ID UW RW WSOL_MINT USER true 3000.
Definition V7 := get RV7.
Lemma user_free : ~ In USER controller_pdas.
Proof. unfold USER. cbn. unfold POOL_STATE_ID, LST_STATE_LIST_ID, DISABLE_POOL_AUTHORITY_LIST_ID,
      REBALANCE_RECORD_ID, PROTOCOL_FEE_ID. intuition lia. Qed.
Lemma V0_reach : reachable D0 V0. Proof. apply reach_genesis, V0_genesis. Qed.
Lemma V1_reach : reachable D0 V1. Proof. reach V1 RV1 V0_reach. Qed.
Lemma V2_reach : reachable D0 V2. Proof. reach V2 RV2 V1_reach. Qed.
Lemma V3_reach : reachable D0 V3. Proof. reach V3 RV3 V2_reach. Qed.
Lemma V4_reach : reachable D0 V4. Proof. reach V4 RV4 V3_reach. Qed.
Lemma V5_reach : reachable D0 V5.
Proof. unfold V5, RV5. apply reach_transfer; [exact V4_reach|lia|exact user_free|vm_compute; reflexivity]. Qed.
Lemma V6_reach : reachable D0 V6.
Proof. unfold V6, RV6. apply reach_transfer; [exact V5_reach|lia|exact user_free|vm_compute; reflexivity]. Qed.
Lemma V7_reach : reachable D0 V7.
Proof. unfold V7, RV7. apply reach_transfer; [exact V6_reach|lia|exact user_free|vm_compute; reflexivity]. Qed.

(** The stake pools. *)
Definition pool_a2 : SplPool := mkSpl true MA 7 1500000 1000000 0 0.
Definition pwv : PWorld := put_acc pw1 514 (mkPAcc 510 (PSpl pool_a2)).
Lemma pwv_typed : pools_typed pwv.
Proof.
  intros k. unfold pwv, pdata, put_acc. cbn [pw_acc]. unfold upd. destruct (k =? 514); [vm_compute; repeat split; discriminate|].
  exact (pw1_typed k).
Qed.
Definition lst_a : SanctumLst := mkSanctumLst MA (PiSpl SplMain 514) SPL_TOKEN_ID.
Definition lst_b : SanctumLst := mkSanctumLst MB (PiSpl SanctumSpl 524) SPL_TOKEN_2022_ID.
Definition lst_w : SanctumLst := mkSanctumLst WSOL_MINT PiReservePool SPL_TOKEN_ID.
Definition lstsv : list SanctumLst := [lst_b; lst_w; lst_a].
Definition lv : list LstState := the_list_or V7.
Definition pv : PoolState := match the_pool V7 with Some p => p | None => mkPool 0 0 0 0 0 0 0 0 0 0 0 end.

Lemma setting : tool_setting ref_ratio_lib dp1 D0 lstsv V7 pwv lv pv.
Proof.
  constructor.
  - exact D0_ok.
  - exact dp1_ok.
  - exact ref_ratio_lib_ok.
  - exact pwv_typed.
  - exact V7_reach.
  - vm_compute. reflexivity.
  - vm_compute. reflexivity.
  - vm_compute. discriminate.
  - intros s [<-|[<-|[<-|[]]]]; split; try exact I; try reflexivity; intros _; vm_compute; reflexivity.
  - change (NoDup [32; 20; 31]). repeat (apply NoDup_cons; [cbn [In]; lia|]). apply NoDup_nil.
  - vm_compute. reflexivity.
  - intros ls H. assert (Hl : lv = [mkLst 0 255 255 0 MA CA; mkLst 0 255 255 0 MB CB; mkLst 0 255 255 0 WSOL_MINT 45]) by (vm_compute; reflexivity).
    rewrite Hl in H. cbn [In] in H. destruct H as [<-|[<-|[<-|[]]]]; cbn; intros H; try reflexivity; discriminate H.
Qed.

(** The tool's caches. *)
Definition getS (r : res SPool) : SPool := match r with Ok x => x | Err _ => client0 end.
Definition getP (r : res Plan) : Plan := match r with Ok x => x | Err _ => mkPlan (mkTop 0 [] []) 0 (mkTop 0 [] []) end.
Definition Sst : SPool := getS (cli_spool dp1 D0 lstsv lv pv 7 MA MB [] (chain_account V7 pwv)).
Definition Sws : SPool := getS (cli_spool dp1 D0 lstsv lv pv 7 MA WSOL_MINT [] (chain_account V7 pwv)).
Definition Pst : Plan := getP (rebal_stake ref_ratio_lib dp1 D0 3 Sst REBALANCER UA lst_a lst_b 600 400 1000).
Definition Pws : Plan := getP (rebal_withdraw_sol dp1 D0 Sws REBALANCER UA lst_a 600 880 1000).
Definition Psl : Plan := getP (rebal_sol ref_ratio_lib dp1 D0 Sws REBALANCER UW lst_a 2 1 1000).
Definition ctx_of (p : Plan) (i : nat) : Ctx := mkCtx [pl_start p; pl_end p] i.
Definition Ev : Env := deployed_env ref_ratio_lib dp1 pwv E0.

(** The middle of the transaction: the user puts [amt] of [m] into the pool's reserves. *)
Definition put (w : World) (p m u r : key) (amt : Z) : res World := transfer_checked w p u r m USER true amt.
Lemma put_others w p m u r amt w' : reachable D0 w -> 0 <= amt -> put w p m u r amt = Ok w' -> others D0 w w'.
Proof.
  intros Hr Ha H. eapply others_more; [apply others_none|]. eapply transfer_external; [| |exact Ha|exact user_free|exact H].
  - apply base_u64. exact (proj1 (reachable_inv D0 D0_ok _ Hr)).
  - exact (proj1 (reachable_ata D0 D0_ok _ Hr)).
Qed.

Lemma amt_ok x : (0 <=? x) = true -> 0 <= x.
Proof. apply Z.leb_le. Qed.

(** rebal-stake: 600 [MA] become at least 400 [MB] through the stake pools; the subsidy is 51; the theorem's hypotheses
    hold and the end goes through; with one token less it does not. *)
Definition RS1 := run D0 Ev (ctx_of Pst 0) V7 (pl_start Pst).
Definition VS1 := get RS1.
Definition RS2 := put VS1 SPL_TOKEN_2022_ID MB UB RB 451.
Definition VS2 := get RS2.
Definition RS2' := put VS1 SPL_TOKEN_2022_ID MB UB RB 450.
Definition VS2' := get RS2'.
Lemma RS1_ok : run D0 Ev (ctx_of Pst 0) V7 (pl_start Pst) = Ok VS1.
Proof. unfold VS1, RS1. apply okb_get. vm_compute. reflexivity. Qed.
Lemma RS2_ok : put VS1 SPL_TOKEN_2022_ID MB UB RB 451 = Ok VS2.
Proof. unfold VS2, RS2. apply okb_get. vm_compute. reflexivity. Qed.
Example C51_case_stake :
  cli_spool dp1 D0 lstsv lv pv (pw_epoch pwv) (sl_mint lst_a) (sl_mint lst_b) [] (chain_account V7 pwv) = Ok Sst /\
  In lst_a lstsv /\ In lst_b lstsv /\ sl_mint lst_a <> sl_mint lst_b /\
  rebal_stake ref_ratio_lib dp1 D0 3 Sst REBALANCER UA lst_a lst_b 600 400 1000 = Ok Pst /\ pl_subsidy Pst = 51 /\
  pdas_do_not_sign (ti_accs (pl_start Pst)) /\
  run D0 Ev (ctx_of Pst 0) V7 (pl_start Pst) = Ok VS1 /\ others D0 VS1 VS2 /\
  balance V7 RB + 400 + pl_subsidy Pst = balance VS2 RB /\ reserves_of D0 V7 MB = RB /\
  okb (run D0 Ev (ctx_of Pst 1) VS2 (pl_end Pst)) = true /\
  run D0 Ev (ctx_of Pst 1) VS2' (pl_end Pst) = Err (Ctl PoolWouldLoseSolValue).
Proof.
  split; [vm_compute; reflexivity|]. split; [right; right; left; reflexivity|]. split; [left; reflexivity|].
  split; [vm_compute; discriminate|]. split; [vm_compute; reflexivity|]. split; [vm_compute; reflexivity|].
  assert (Hsig : pdas_do_not_sign (ti_accs (pl_start Pst))) by (apply pdas_do_not_signb_ok; vm_compute; reflexivity).
  split; [exact Hsig|]. split; [exact RS1_ok|].
  split. { apply (fun Hr => put_others _ _ _ _ _ _ _ Hr (amt_ok 451 eq_refl) RS2_ok). exact (run_reach D0 Ev (ctx_of Pst 0) V7 (pl_start Pst) VS1 V7_reach Hsig RS1_ok). }
  split; [vm_compute; reflexivity|]. split; [vm_compute; reflexivity|]. split; vm_compute; reflexivity.
Qed.

(** The stake pools' rates are unchanged here, so no amount is worth less. *)
Lemma unchanged_not_worth_less k accs : not_worth_less Ev Ev (kn_program_id dp1 k) (kn_lst_mint dp1 k) accs.
Proof.
  intros w w' x v hi H. exists v, hi. split; [|lia]. unfold Ev in *. cbn [e_lst_to_sol deployed_env] in *. unfold calc_answer in *.
  destruct (wsol_or_program dp1 dp1_ok k) as [->|(cfg & Hc & E)].
  - rewrite (wsol_known dp1 dp1_ok) in *. exact H.
  - rewrite E, (calc_cfg_known dp1 dp1_ok), Hc in *. exact H.
Qed.

(** rebal-withdraw-sol: 600 [MA] become 880 wSOL; the subsidy is 20, and 19 is not enough. *)
Definition RX1 := run D0 Ev (ctx_of Pws 0) V7 (pl_start Pws).
Definition VX1 := get RX1.
Definition RX2 := put VX1 SPL_TOKEN_ID WSOL_MINT UW RW 900.
Definition VX2 := get RX2.
Definition RX2' := put VX1 SPL_TOKEN_ID WSOL_MINT UW RW 899.
Definition VX2' := get RX2'.
Lemma RX1_ok : run D0 Ev (ctx_of Pws 0) V7 (pl_start Pws) = Ok VX1.
Proof. unfold VX1, RX1. apply okb_get. vm_compute. reflexivity. Qed.
Lemma RX2_ok : put VX1 SPL_TOKEN_ID WSOL_MINT UW RW 900 = Ok VX2.
Proof. unfold VX2, RX2. apply okb_get. vm_compute. reflexivity. Qed.
Lemma RX2'_ok : put VX1 SPL_TOKEN_ID WSOL_MINT UW RW 899 = Ok VX2'.
Proof. unfold VX2', RX2'. apply okb_get. vm_compute. reflexivity. Qed.
Example C51_case_withdraw_sol :
  cli_spool dp1 D0 lstsv lv pv (pw_epoch pwv) (sl_mint lst_a) WSOL_MINT [] (chain_account V7 pwv) = Ok Sws /\
  sl_mint lst_a <> WSOL_MINT /\
  rebal_withdraw_sol dp1 D0 Sws REBALANCER UA lst_a 600 880 1000 = Ok Pws /\ pl_subsidy Pws = 20 /\
  pdas_do_not_sign (ti_accs (pl_start Pws)) /\ UA <> reserves_of D0 V7 (sl_mint lst_a) /\
  run D0 Ev (ctx_of Pws 0) V7 (pl_start Pws) = Ok VX1 /\ others D0 VX1 VX2 /\ others D0 VX1 VX2' /\
  balance V7 RW + 880 + pl_subsidy Pws = balance VX2 RW /\ reserves_of D0 V7 WSOL_MINT = RW /\
  okb (run D0 Ev (ctx_of Pws 1) VX2 (pl_end Pws)) = true /\
  run D0 Ev (ctx_of Pws 1) VX2' (pl_end Pws) = Err (Ctl PoolWouldLoseSolValue).
Proof.
  split; [vm_compute; reflexivity|]. split; [vm_compute; discriminate|].
  split; [vm_compute; reflexivity|]. split; [vm_compute; reflexivity|].
  assert (Hsig : pdas_do_not_sign (ti_accs (pl_start Pws))) by (apply pdas_do_not_signb_ok; vm_compute; reflexivity).
  assert (Hr : reachable D0 VX1) by (exact (run_reach D0 Ev (ctx_of Pws 0) V7 (pl_start Pws) VX1 V7_reach Hsig RX1_ok)).
  split; [exact Hsig|]. split; [vm_compute; discriminate|]. split; [exact RX1_ok|].
  split. { apply (put_others _ _ _ _ _ _ _ Hr (amt_ok 900 eq_refl) RX2_ok). }
  split. { apply (put_others _ _ _ _ _ _ _ Hr (amt_ok 899 eq_refl) RX2'_ok). }
  split; [vm_compute; reflexivity|]. split; [vm_compute; reflexivity|]. split; vm_compute; reflexivity.
Qed.

(** rebal-sol, a defect: 2 lamports are to become [MA], worth 1.5 lamports each; the command takes 1 token for enough
    and asks for no subsidy, and the transaction is refused although the operator did what the command computed; one
    more token unit and it goes through. *)
Definition RY1 := run D0 Ev (ctx_of Psl 0) V7 (pl_start Psl).
Definition VY1 := get RY1.
Definition RY2 := put VY1 SPL_TOKEN_ID MA UA RA 1.
Definition VY2 := get RY2.
Definition RY2' := put VY1 SPL_TOKEN_ID MA UA RA 2.
Definition VY2' := get RY2'.
Lemma RY1_ok : run D0 Ev (ctx_of Psl 0) V7 (pl_start Psl) = Ok VY1.
Proof. unfold VY1, RY1. apply okb_get. vm_compute. reflexivity. Qed.
Lemma RY2_ok : put VY1 SPL_TOKEN_ID MA UA RA 1 = Ok VY2.
Proof. unfold VY2, RY2. apply okb_get. vm_compute. reflexivity. Qed.
Lemma RY2'_ok : put VY1 SPL_TOKEN_ID MA UA RA 2 = Ok VY2'.
Proof. unfold VY2', RY2'. apply okb_get. vm_compute. reflexivity. Qed.
Theorem C51_sol_short :
  tool_setting ref_ratio_lib dp1 D0 lstsv V7 pwv lv pv /\
  cli_spool dp1 D0 lstsv lv pv (pw_epoch pwv) (sl_mint lst_a) WSOL_MINT [] (chain_account V7 pwv) = Ok Sws /\
  In lst_a lstsv /\ sl_mint lst_a <> WSOL_MINT /\
  rebal_sol ref_ratio_lib dp1 D0 Sws REBALANCER UW lst_a 2 1 1000 = Ok Psl /\ pl_subsidy Psl = 0 /\
  pdas_do_not_sign (ti_accs (pl_start Psl)) /\
  run D0 Ev (ctx_of Psl 0) V7 (pl_start Psl) = Ok VY1 /\ others D0 VY1 VY2 /\ others D0 VY1 VY2' /\
  reserves_of D0 V7 MA = RA /\
  balance V7 RA + 1 + pl_subsidy Psl = balance VY2 RA /\ balance V7 RA + 1 + pl_subsidy Psl + 1 = balance VY2' RA /\
  run D0 Ev (ctx_of Psl 1) VY2 (pl_end Psl) = Err (Ctl PoolWouldLoseSolValue) /\
  okb (run D0 Ev (ctx_of Psl 1) VY2' (pl_end Psl)) = true.
Proof.
  split; [exact setting|]. split; [vm_compute; reflexivity|]. split; [right; right; left; reflexivity|].
  split; [vm_compute; discriminate|].
  split; [vm_compute; reflexivity|]. split; [vm_compute; reflexivity|].
  assert (Hsig : pdas_do_not_sign (ti_accs (pl_start Psl))) by (apply pdas_do_not_signb_ok; vm_compute; reflexivity).
  assert (Hr : reachable D0 VY1) by (exact (run_reach D0 Ev (ctx_of Psl 0) V7 (pl_start Psl) VY1 V7_reach Hsig RY1_ok)).
  split; [exact Hsig|]. split; [exact RY1_ok|].
  split. { apply (put_others _ _ _ _ _ _ _ Hr (amt_ok 1 eq_refl) RY2_ok). }
  split. { apply (put_others _ _ _ _ _ _ _ Hr (amt_ok 2 eq_refl) RY2'_ok). }
  split; [vm_compute; reflexivity|]. split; [vm_compute; reflexivity|]. split; [vm_compute; reflexivity|].
  split; vm_compute; reflexivity.
Qed.
