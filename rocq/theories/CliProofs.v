(** Proofs about the rebalancing commands of the command line tool. *)
From Coq Require Import ZArith List Bool Lia.
From Verif Require Import Base Ratio Calc State Controller Inversion ProcInv Spec CalcProofs InvProofs TokProofs
  AccessProofs ShapeProofs MoneyProofs Serde SerdeProofs PropSerde Periph PeriphSpec PeriphProofs PropCalc Client ClientSpec
  ClientProofs PropClient Deploy Known Jup JupSpec JupProofs JupPool JupRefresh Cli CliSpec.
Import ListNotations.
Open Scope Z_scope.

(* ------------------------------------------------------------------ *)
(** * A pair of rebalance instructions *)

(** The outcome of EndRebalance, when the destination's calculator answers [ans], the pool's total and the
    destination's recorded value are [t1] and [vd], and the destination must gain [owed]. *)
Definition end_outcome (ans : res (Z * Z)) (t1 vd owed : Z) (w3 : World) : res World :=
  match ans with
  | Err _ => Err ExternalErr
  | Ok (v, hi) =>
      if negb (u64b v && u64b hi) then Err (Ctl FaultySolValueCalculator)
      else if U64_MAX <? t1 - vd + v then Err (Ctl MathError)
      else if v - vd <? owed then Err (Ctl PoolWouldLoseSolValue)
      else Ok w3
  end.

Lemma app_inj_len {A} (a a' b b' : list A) : length a = length a' -> a ++ b = a' ++ b' -> a = a' /\ b = b'.
Proof.
  revert a'. induction a as [|x a IH]; intros [|y a'] Hl H; cbn in *; try discriminate; [auto|].
  injection Hl as Hl. injection H as -> H. destruct (IH _ Hl H) as (-> & ->). auto.
Qed.

Lemma sumZ_two_le l i j x y : Forall (fun x => 0 <= x) l -> nth_error l i = Some x -> nth_error l j = Some y -> i <> j -> x + y <= sumZ l.
Proof.
  intros Hf Hi Hj Hne. pose proof (sumZ_replace l i 0 x Hi) as Hs.
  assert (y <= sumZ (replace_nth l i 0)); [|lia]. apply sumZ_elem_le.
  - rewrite Forall_forall in *. intros z Hz. apply In_replace_nth in Hz as [->|Hz]; [lia|auto].
  - eapply nth_error_In with (n := j). rewrite nth_error_replace_other by congruence. exact Hj.
Qed.

Section Pair.
Context (D : Derive) (HD : derive_ok D).

Lemma end_exact E C w ps l j ldst r old dst da :
  the_pool w = Some ps -> is_rebalancing ps = 1 -> the_list w = Some l -> the_record w = Some (mkRec old j) ->
  nth_lst l j = Some ldst -> ls_mint ldst = dst ->
  create_pool_reserves_address D ldst (w_owner w dst) = Ok r -> w_tok w r <> None ->
  0 <= sol_value ldst <= total_sol_value ps ->
  exists wz w3, same_tokens w wz /\
    process D E C w ([sg (rebalance_authority ps); wr POOL_STATE_ID; wr LST_STATE_LIST_ID; wr REBALANCE_RECORD_ID;
      ro dst; ro r] ++ (ro (sol_value_calculator ldst) :: da)) EndRebalance =
    end_outcome (e_lst_to_sol E wz (sol_value_calculator ldst) dst da (balance w r)) (total_sol_value ps)
      (sol_value ldst) (old - total_sol_value ps) w3.
Proof.
  intros Hp Hre Hl Hr Hn Hm Hc Ht Hs.
  exists (put_pool w POOL_STATE_ID (Some (set_rebalancing ps 0))).
  unfold process; cbn [ix_wfb guard app]. unfold process_end_rebalance, resolve_end_rebalance, check_pool_key, check_list_key.
  cbn [mk sg ro wr]. rewrite !Z.eqb_refl. cbn [guard].
  rewrite (ClientProofs.pool_ok w ps Hp), (list_ok w l Hl). cbn [bind].
  unfold try_rebalance_record at 1. unfold the_record in Hr. rewrite Hr. cbn [of_option bind dst_lst_index].
  rewrite (match_on _ _ _ _ Hn Hm). cbn [bind]. rewrite Hc, Hm. cbn [bind].
  unfold verify_keys_privs. cbn [keys_match mk]. rewrite !Z.eqb_refl. cbn [andb guard]. privs.
  rewrite Hre. change (u8bool_is_true 1) with true. cbn [guard].
  rewrite (calc_cpi w l j ldst _ _ Hl Hn eq_refl). cbn [bind].
  set (wz := put_pool w POOL_STATE_ID (Some (set_rebalancing ps 0))).
  assert (Hrz : try_rebalance_record wz REBALANCE_RECORD_ID = Ok (mkRec old j)) by (unfold try_rebalance_record, wz, put_pool; cbn [w_rec]; rewrite Hr; reflexivity).
  rewrite Hrz. cbn [bind old_total_sol_value].
  unfold sync_sol_value_unchecked, token_account_balance.
  change (w_tok wz r) with (w_tok w r).
  unfold balance. destruct (w_tok w r) as [t|]; [|congruence]. cbn [of_option bind].
  unfold invoke_lst_to_sol. cbn [cpi_prog cpi_accs mk ro].
  destruct (e_lst_to_sol E wz (sol_value_calculator ldst) dst da (ta_amount t)) as [(v & hi)|er];
    cbn [decode_range of_ext bind end_outcome].
  2:{ exists w. split; [split; reflexivity|reflexivity]. }
  destruct (u64b v && u64b hi) eqn:Hu; cbn [negb guard bind].
  2:{ exists w. split; [split; reflexivity|reflexivity]. }
  assert (Hpz : try_pool_state wz POOL_STATE_ID = Ok (set_rebalancing ps 0)) by (unfold try_pool_state, wz, put_pool; cbn [w_pool]; rewrite upd_same; reflexivity).
  rewrite Hpz. cbn [bind].
  unfold try_lst_state_list. change (w_list wz LST_STATE_LIST_ID) with (the_list w). rewrite Hl. cbn [of_option bind].
  rewrite Hn. cbn [of_option bind]. unfold sync_sol_value_with_retval, checked_sub, checked_add.
  cbn [total_sol_value set_rebalancing]. destruct (Z.leb_spec (sol_value ldst) (total_sol_value ps)); [|lia]. cbn [bind].
  destruct (Z.leb_spec (total_sol_value ps - sol_value ldst + v) U64_MAX) as [Hle|Hgt]; cbn [bind].
  2:{ exists w. split; [split; reflexivity|]. destruct (Z.ltb_spec U64_MAX (total_sol_value ps - sol_value ldst + v)); [reflexivity|lia]. }
  eexists. split; [split; reflexivity|].
  destruct (Z.ltb_spec U64_MAX (total_sol_value ps - sol_value ldst + v)); [lia|].
  unfold pool_field, try_pool_state, put_list, put_pool; cbn [w_pool]. rewrite upd_same. cbn [of_option bind total_sol_value set_total].
  destruct (Z.leb_spec old (total_sol_value ps - sol_value ldst + v)); cbn [guard];
    destruct (Z.ltb_spec (v - sol_value ldst) (old - total_sol_value ps)); try lia; reflexivity.
Qed.


Lemma start_end_shape w withdraw_to src dst amount mn mx sa da t e ps i ls r f j ld r' f' :
  fresh w w -> looked_up D w w src i ls ls r f -> looked_up D w w dst j ld ld r' f' -> the_pool w = Some ps ->
  suffix_ok 1 sa -> suffix_ok 1 da -> U64 amount -> U64 mn -> U64 mx ->
  client_start_rebalance D w withdraw_to LST_STATE_LIST_ID POOL_STATE_ID src dst amount mn mx sa da = Ok t ->
  client_end_rebalance t = Ok e ->
  (forall E C, run D E C w t = process D E C w ([sg (rebalance_authority ps); wr POOL_STATE_ID; wr LST_STATE_LIST_ID;
       wr REBALANCE_RECORD_ID; ro src; ro dst; wr r; wr r'; wr withdraw_to; ro INSTRUCTIONS_SYSVAR_ID; ro SYSTEM_PROGRAM_ID;
       ro (w_owner w src)] ++ (ro (sol_value_calculator ls) :: skipn 1 sa) ++ (ro (sol_value_calculator ld) :: skipn 1 da))
     (StartRebalance (mkStartReb (len sa) i j amount mn mx))) /\
  (forall E C w2, run D E C w2 e = process D E C w2 ([sg (rebalance_authority ps); wr POOL_STATE_ID; wr LST_STATE_LIST_ID;
     wr REBALANCE_RECORD_ID; ro dst; ro r'] ++ (ro (sol_value_calculator ld) :: skipn 1 da)) EndRebalance).
Proof.
  intros HF L L' Hp Hs Hs' Ha Hmin Hmax Ht He.
  destruct (suffix_group 0 sa (sol_value_calculator ls) Hs) as (_ & Hlen & _).
  pose proof (start_built D w w HF withdraw_to src dst amount mn mx sa da ps _ _ _ _ _ _ _ _ _ _ L L' Hp Hs Hs') as Hb.
  rewrite Ht in Hb. injection Hb as Hb.
  destruct (start_eq D w w HF withdraw_to src dst amount mn mx sa da ps _ _ _ _ _ _ _ _ _ _ L L' Hp Hs Hs' Ha Hmin Hmax) as (Hwf & _).
  split. { intros E C. rewrite Hb. apply run_built. exact Hwf. }
  assert (e = built ([sg (rebalance_authority ps); wr POOL_STATE_ID; wr LST_STATE_LIST_ID;
     wr REBALANCE_RECORD_ID; ro dst; ro r'] ++ (ro (sol_value_calculator ld) :: skipn 1 da)) EndRebalance) as ->.
  { revert He. rewrite Hb. unfold client_end_rebalance. rewrite decode_built by exact Hwf. cbn [of_option bind].
    unfold built at 1 2 3 4; cbn [ti_accs ti_prog sr_src_lst_calc_accs].
    match goal with |- context [slice_from ?m ?n] =>
      assert (Hsl : slice_from m n = Ok (ro (sol_value_calculator ld) :: skipn 1 da)) end.
    { set (g := ro (sol_value_calculator ls) :: skipn 1 sa) in *.
      match goal with |- slice_from ?m _ = _ => change m with
        (([sg (rebalance_authority ps); wr POOL_STATE_ID; wr LST_STATE_LIST_ID; wr REBALANCE_RECORD_ID; ro src; ro dst;
              wr r; wr r'; wr withdraw_to; ro INSTRUCTIONS_SYSVAR_ID; ro SYSTEM_PROGRAM_ID; ro (w_owner w src)] ++
              g) ++ (ro (sol_value_calculator ld) :: skipn 1 da)) end.
      apply slice_from_app; [|unfold len; lia].
      rewrite app_length, Hlen. cbn [length]. unfold len. lia. }
    rewrite Hsl. cbn [bind app]. intros [= <-]. reflexivity. }
  intros E C w2. apply run_built. reflexivity.
Qed.

Lemma listed_from w l m i ls : the_list w = Some l -> try_find_lst_mint_on_list m l = Ok (i, ls) -> listed w m.
Proof.
  intros Hl Hf. apply find_lst_spec in Hf as (_ & Hn & Hm). exists l, ls. split; [exact Hl|]. split; [eapply nth_error_In, Hn|exact Hm].
Qed.
Lemma start_listed w withdraw_to src dst amount mn mx sa da t :
  client_start_rebalance D w withdraw_to LST_STATE_LIST_ID POOL_STATE_ID src dst amount mn mx sa da = Ok t ->
  listed w src /\ listed w dst.
Proof.
  unfold client_start_rebalance. intros H. apply bind_ok in H as (l & Hl & H). apply bind_ok in H as ((i & ls) & Hi & H).
  apply bind_ok in H as (r & _ & H). apply bind_ok in H as ((j & ld) & Hj & H).
  apply of_option_ok in Hl. split; eapply listed_from; eauto.
Qed.
Lemma looked_reserves w m i ls r f : reachable D w -> looked_up D w w m i ls ls r f -> the_list w <> None -> r = reserves_of D w m.
Proof.
  intros Hr L Hl. destruct (the_list w) as [l|] eqn:El; [|congruence].
  destruct (reachable_ata D HD w Hr) as (_ & Ha & _). specialize (Ha l El). rewrite Forall_forall in Ha.
  destruct (Ha ls (nth_error_In _ _ (lu_nth _ _ _ _ _ _ _ _ _ L l El))) as (_ & _ & r0 & f0 & F1 & _ & _).
  rewrite (lu_mint _ _ _ _ _ _ _ _ _ L) in F1. unfold reserves_of. rewrite F1. cbn [fst].
  pose proof (lu_res _ _ _ _ _ _ _ _ _ L) as Hc. unfold create_pool_reserves_address in Hc. apply of_option_ok in Hc.
  rewrite (lu_mint _ _ _ _ _ _ _ _ _ L) in Hc. pose proof (proj1 HD POOL_STATE_ID (w_owner w m) m) as Hd. rewrite F1 in Hd. cbn [fst snd] in Hd. congruence.
Qed.
Lemma looked_self w m i lsv ls r f l : looked_up D w w m i lsv ls r f -> the_list w = Some l -> lsv = ls.
Proof.
  intros L Hl. pose proof (lu_find _ _ _ _ _ _ _ _ _ L l Hl) as Hf. apply find_lst_spec in Hf as (_ & Hn & _).
  rewrite Z.sub_0_r in Hn. pose proof (lu_nth _ _ _ _ _ _ _ _ _ L l Hl) as Hn'. unfold nth_lst in Hn'. congruence.
Qed.

Lemma pair_core w l ps withdraw_to src dst amount mn mx sa da t e E C w1 :
  reachable D w -> the_list w = Some l -> the_pool w = Some ps -> Z.of_nat (length l) <= U32_MAX -> src <> dst ->
  suffix_ok 1 sa -> suffix_ok 1 da -> U64 amount -> U64 mn -> U64 mx ->
  client_start_rebalance D w withdraw_to LST_STATE_LIST_ID POOL_STATE_ID src dst amount mn mx sa da = Ok t ->
  client_end_rebalance t = Ok e -> pdas_do_not_sign (ti_accs t) -> run D E C w t = Ok w1 ->
  let rs := reserves_of D w src in let rd := reserves_of D w dst in
  exists i j cs cd wb wc vs0 hs0 vd0 hd0 vs1 hs1,
    listed_at w i src cs /\ listed_at w j dst cd /\ 0 <= amount <= balance w rs /\
    e_lst_to_sol E w cs src (skipn 1 sa) (balance w rs) = Ok (vs0, hs0) /\
    e_lst_to_sol E wb cd dst (skipn 1 da) (balance w rd) = Ok (vd0, hd0) /\
    e_lst_to_sol E wc cs src (skipn 1 sa) (balance w rs - amount + on rs withdraw_to amount) = Ok (vs1, hs1) /\
    U64 vs0 /\ U64 vd0 /\ U64 vs1 /\
    recorded w1 j = vd0 /\ balance w1 rd = balance w rd /\
    total w1 + vs0 - vs1 <= U64_MAX /\ vs0 + vd0 <= U64_MAX /\
    (forall w2 E' C', others D w1 w2 -> exists wz w3, same_tokens w2 wz /\ run D E' C' w2 e =
       end_outcome (e_lst_to_sol E' wz cd dst (skipn 1 da) (balance w2 rd)) (total w1) vd0 (vs0 - vs1) w3).
Proof.
  intros HR Hl Hp Hlen Hsd Hs Hs' Ha Hmin Hmax Ht He Hsig Hrun rs rd.
  destruct (start_listed _ _ _ _ _ _ _ _ _ _ Ht) as (Lm & Lm').
  assert (HF : fresh w w). { split; [eauto|]. split; [|auto]. exists l, l. auto. }
  destruct (look_up D HD w w _ HR HF Lm) as (i & lsv & ls & r & f & L).
  destruct (look_up D HD w w _ HR HF Lm') as (j & ldv & ld & r' & f' & L').
  pose proof (looked_self _ _ _ _ _ _ _ _ L Hl) as ->. pose proof (looked_self _ _ _ _ _ _ _ _ L' Hl) as ->.
  destruct (start_end_shape w withdraw_to src dst amount mn mx sa da t e ps _ _ _ _ _ _ _ _ HF L L' Hp Hs Hs' Ha Hmin Hmax Ht He)
    as (Hst & Hen).
  assert (Hb : ti_accs t = [sg (rebalance_authority ps); wr POOL_STATE_ID; wr LST_STATE_LIST_ID;
       wr REBALANCE_RECORD_ID; ro src; ro dst; wr r; wr r'; wr withdraw_to; ro INSTRUCTIONS_SYSVAR_ID; ro SYSTEM_PROGRAM_ID;
       ro (w_owner w src)] ++ (ro (sol_value_calculator ls) :: skipn 1 sa) ++ (ro (sol_value_calculator ld) :: skipn 1 da)).
  { pose proof (start_built D w w HF withdraw_to src dst amount mn mx sa da ps _ _ _ _ _ _ _ _ _ _ L L' Hp Hs Hs') as Hb.
    rewrite Ht in Hb. injection Hb as ->. reflexivity. }
  assert (Er : r = rs) by (eapply looked_reserves; eauto; congruence).
  assert (Er' : r' = rd) by (eapply looked_reserves; eauto; congruence).
  pose proof (lu_mint _ _ _ _ _ _ _ _ _ L) as Mi. pose proof (lu_mint _ _ _ _ _ _ _ _ _ L') as Mj.
  pose proof (lu_nth _ _ _ _ _ _ _ _ _ L l Hl) as Ni. pose proof (lu_nth _ _ _ _ _ _ _ _ _ L' l Hl) as Nj.
  assert (Hij : Z.to_nat i <> Z.to_nat j) by (intros Eij; unfold nth_lst in *; congruence).
  pose proof (lu_res _ _ _ _ _ _ _ _ _ L') as Cj.
  rewrite Hst in Hrun.
  assert (HR1 : reachable D w1).
  { destruct HR as (w0 & Hg & Hsts). exists w0. split; auto. eapply steps_cons; [exact Hsts|].
    eapply step_controller; [|exact Hrun]. rewrite <- Hb. exact Hsig. }
  rewrite Hb in Hsig. clear Hb.
  unfold process in Hrun. apply guard_ok in Hrun as (_ & Hrun).
  apply start_rebalance_inv in Hrun.
  destruct Hrun as (x1 & x2 & x3 & x4 & x5 & x6 & x7 & x8 & x9 & x10 & x11 & x12 & qs & qd & ps0 & l0 & lsrc & ldst &
      t1 & t2 & y1 & y2 & ps2 & y3 & y4 & ps4 & Hacc & Hql & _ & _ & _ & _ & _ & _ & _ & Hp0 & _ & Hl0 & N1 & N2 & _ & _ & _ & _ & _ &
      _ & _ & T1 & _ & T2 & _ & _ & S1 & S2 & P2 & T & S4 & R4 & P4 & W1).
  cbn [sr_src_lst_calc_accs sr_src_lst_index sr_dst_lst_index sr_amount] in *.
  assert (Hqs : (cpi_prog qs :: cpi_accs qs) = (ro (sol_value_calculator ls) :: skipn 1 sa) /\
                (cpi_prog qd :: cpi_accs qd) = (ro (sol_value_calculator ld) :: skipn 1 da)).
  { destruct (suffix_group 0 sa (sol_value_calculator ls) Hs) as (_ & Hlen1 & _).
    apply (f_equal (skipn 12)) in Hacc. cbn [skipn app] in Hacc.
    change ((ro (sol_value_calculator ls) :: skipn 1 sa) ++ (ro (sol_value_calculator ld) :: skipn 1 da) =
            (cpi_prog qs :: cpi_accs qs) ++ (cpi_prog qd :: cpi_accs qd)) in Hacc.
    apply app_inj_len in Hacc; [|congruence]. destruct Hacc as (<- & <-). auto. }
  destruct Hqs as (Hqs & Hqd). destruct qs as [qsp qsa], qd as [qdp qda]. cbn [cpi_prog cpi_accs] in *.
  injection Hqs as -> ->. injection Hqd as -> ->.
  cbn [app] in Hacc. injection Hacc as <- <- <- <- <- <- <- <- <- <- <- <-. cbn [mk sg ro wr] in *.
  unfold the_list, the_pool in Hl, Hp. rewrite Hl in Hl0. injection Hl0 as <-. rewrite Hp in Hp0. injection Hp0 as <-.
  assert (lsrc = ls) as -> by congruence. assert (ldst = ld) as -> by congruence.
  rewrite Er, Er' in *. clear Er Er'.
  pose proof (transfer_ctl _ _ _ _ _ _ _ _ _ T) as TC.
  pose proof (transfer_balance _ _ _ _ _ _ _ _ _ T) as (TB & _ & _ & TL & _).
  pose proof (transfer_shape _ _ _ _ _ _ _ _ _ T) as TS.
  pose proof (transfer_inv _ _ _ _ _ _ _ _ _ T) as (tf & tt0 & tm & _ & Tf & Tt & _ & _ & _ & _ & TMf & TMt & _).
  apply sync_inv in S1 as (u1 & p1 & k1 & e1 & vs0 & hs0 & U1 & A1 & Uv1 & _ & Q1 & K1 & J1 & G1 & B1 & ->).
  apply sync_inv in S2 as (u2 & p2 & k2 & e2 & vd0 & hd0 & U2 & A2 & Uv2 & _ & Q2 & K2 & J2 & G2 & B2 & ->).
  apply sync_inv in S4 as (u4 & p4 & k4 & e4 & vs1 & hs1 & U4 & A4 & Uv4 & _ & Q4 & K4 & J4 & G4 & B4 & ->).
  cbn [cpi_prog cpi_accs mk ro] in A1, A2, A4.
  rewrite Hp in Q1. injection Q1 as <-. rewrite Hl in K1. injection K1 as <-. rewrite Ni in J1. injection J1 as <-.
  unfold put_list, put_pool in Q2, K2, U2, P2, P4, R4, Tf, Tt; cbn [w_pool w_list w_tok w_rec] in Q2, K2, U2, P2, P4, R4, Tf, Tt.
  rewrite upd_same in Q2. rewrite upd_same in K2. rewrite upd_same in P2. rewrite upd_same in P4.
  injection Q2 as <-. injection K2 as <-. injection P2 as <-. injection P4 as <-.
  unfold nth_lst in *. rewrite nth_error_replace_other in J2 by congruence. rewrite Nj in J2. injection J2 as <-.
  destruct TC as (TCp & TCl & _ & TCr & _).
  rewrite TCp in Q4. rewrite TCl in K4. cbn [w_pool w_list put_list put_pool] in Q4, K4.
  rewrite upd_same in Q4. rewrite upd_same in K4. injection Q4 as <-. injection K4 as <-.
  rewrite nth_error_replace_other in J4 by congruence.
  rewrite (nth_error_replace_same _ _ _ _ Ni) in J4. injection J4 as <-.
  cbn [sol_value set_sol_value total_sol_value set_total] in *.
  assert (B1w : ta_amount u1 = balance w rs) by (unfold balance; rewrite U1; reflexivity).
  assert (B2w : ta_amount u2 = balance w rd) by (unfold balance; rewrite U2; reflexivity).
  assert (B4w : ta_amount u4 = balance y3 rs) by (unfold balance; rewrite U4; reflexivity).
  assert (Hne : rd <> rs /\ rd <> withdraw_to).
  { destruct (reachable_ata D HD w HR) as (Hok & _ & _).
    unfold create_pool_reserves_address in Cj. apply of_option_ok in Cj. rewrite Mj in Cj.
    destruct (Hok POOL_STATE_ID _ _ _ _ (or_introl eq_refl) Cj) as (_ & Hu). destruct (Hu u2 U2) as (Hum & _).
    split; intros Heq; rewrite Heq in U2; congruence. }
  destruct Hne as (Hne1 & Hne2).
  match type of TB with forall k, _ = balance ?y _ - _ + _ => assert (TB' : forall k, balance y k = balance w k) by (intros; reflexivity) end.
  assert (By3 : balance y3 rs = balance w rs - amount + on rs withdraw_to amount).
  { rewrite TB, TB'. unfold on at 1. rewrite Z.eqb_refl. reflexivity. }
  assert (Byd : balance y3 rd = balance w rd).
  { rewrite TB, TB'. unfold on. destruct (Z.eqb_spec rd rs); [congruence|]. destruct (Z.eqb_spec rd withdraw_to); [congruence|]. lia. }
  rewrite B1w in A1. rewrite B2w in A2. rewrite B4w, By3 in A4.
  eexists i, j, (sol_value_calculator ls), (sol_value_calculator ld), _, _, vs0, hs0, vd0, hd0, vs1, hs1.
  split. { exists l, ls. auto. } split. { exists l, ld. auto. }
  split. { unfold U64 in Ha. split; [lia|]. rewrite TB' in TL. exact TL. }
  split; [exact A1|]. split; [exact A2|]. split; [exact A4|]. split; [exact Uv1|]. split; [exact Uv2|]. split; [exact Uv4|].
  assert (Hl1 : the_list w1 = Some (replace_nth (replace_nth (replace_nth l (Z.to_nat i) (set_sol_value ls vs0)) (Z.to_nat j)
     (set_sol_value ld vd0)) (Z.to_nat i) (set_sol_value (set_sol_value ls vs0) vs1))).
  { rewrite W1. unfold the_list, put_pool, put_rec, put_list; cbn [w_list]. apply upd_same. }
  assert (Hn1 : nth_error (replace_nth (replace_nth (replace_nth l (Z.to_nat i) (set_sol_value ls vs0)) (Z.to_nat j)
     (set_sol_value ld vd0)) (Z.to_nat i) (set_sol_value (set_sol_value ls vs0) vs1)) (Z.to_nat j) = Some (set_sol_value ld vd0)).
  { rewrite nth_error_replace_other by congruence. eapply nth_error_replace_same. rewrite nth_error_replace_other by congruence. exact Nj. }
  split. { unfold recorded. rewrite Hl1, Hn1. reflexivity. }
  split. { rewrite <- Byd, W1. reflexivity. }
  match type of W1 with _ = put_pool _ _ (Some ?p) => assert (Hp1 : the_pool w1 = Some p) by (rewrite W1; unfold the_pool, put_pool, put_rec; cbn [w_pool]; apply upd_same) end.
  match type of W1 with _ = put_pool (put_rec _ _ (Some ?p)) _ _ => assert (Hr1 : the_record w1 = Some p) by (rewrite W1; unfold the_record, put_pool, put_rec; cbn [w_rec]; apply upd_same) end.
  cbn [total_sol_value set_total] in Hr1.
  assert (Htot : total w1 + vs0 - vs1 <= U64_MAX).
  { unfold total. rewrite Hp1. cbn [total_sol_value set_rebalancing set_total]. lia. }
  split; [exact Htot|].
  split.
  { destruct (proj1 (reachable_inv D HD w1 HR1)) as (lq & au & Hlq & _ & _ & _ & Hok & _ & Hpq).
    rewrite Hl1 in Hlq. injection Hlq as <-. rewrite Hp1 in Hpq. destruct Hpq as (_ & Hsum).
    assert (vs1 + vd0 <= total w1); [|lia]. unfold total. rewrite Hp1, Hsum.
    eapply sumZ_two_le; [| |apply (map_nth_error sol_value) in Hn1; exact Hn1|exact Hij].
    - rewrite Forall_forall in *. intros z Hz. apply in_map_iff in Hz as (lz & <- & Hz). specialize (Hok lz Hz). unfold lst_ok, U64 in Hok. lia.
    - erewrite map_nth_error; [|eapply nth_error_replace_same; rewrite nth_error_replace_other by congruence; eapply nth_error_replace_same; exact Ni]. reflexivity. }
  intros w2 E' C' Ho. destruct (others_ctl _ _ _ Ho) as (Op & Ol & _ & Or).
  pose proof (others_reach _ _ _ HR1 Ho) as HR2.
  assert (Hown : w_owner w2 dst = w_owner w dst).
  { destruct (reachable_ata D HD w HR) as (_ & Hat & _). specialize (Hat l Hl). rewrite Forall_forall in Hat.
    destruct (Hat ld (nth_error_In _ _ Nj)) as (_ & Hmi & _). rewrite Mj in Hmi.
    destruct TS as (TSo & _ & TSm). specialize (TSm dst). cbn [w_mint w_owner put_list put_pool] in TSo, TSm.
    destruct (others_mints _ _ _ dst Ho) as (_ & ->).
    - rewrite W1. unfold put_pool, put_rec, put_list; cbn [w_mint]. destruct (w_mint w dst); [|congruence]. destruct (w_mint y3 dst); congruence || tauto.
    - rewrite W1. unfold put_pool, put_rec, put_list; cbn [w_owner]. rewrite TSo. reflexivity. }
  rewrite Hl1 in Ol. rewrite Hp1 in Op. rewrite Hr1 in Or.
  destruct (reachable_ata D HD w2 HR2) as (_ & Hat2 & _). specialize (Hat2 _ Ol). rewrite Forall_forall in Hat2.
  destruct (Hat2 _ (nth_error_In _ _ Hn1)) as (_ & _ & rr & ff & F1 & _ & Htok & _). cbn [ls_mint set_sol_value pool_reserves_bump] in F1.
  rewrite Mj, Hown in F1. assert (rr = rd) as -> by (unfold rd, reserves_of; rewrite F1; reflexivity).
  assert (Hvt : 0 <= vd0 <= total w1).
  { destruct (proj1 (reachable_inv D HD w1 HR1)) as (lq & au & Hlq & _ & _ & _ & Hok & _ & Hpq).
    rewrite Hl1 in Hlq. injection Hlq as <-. rewrite Hp1 in Hpq. destruct Hpq as (_ & Hsum).
    unfold total. rewrite Hp1, Hsum. split; [unfold U64 in Uv2; lia|].
    apply (map_nth_error sol_value) in Hn1. apply nth_error_In in Hn1. apply sumZ_elem_le; [|exact Hn1].
    rewrite Forall_forall in *. intros z Hz. apply in_map_iff in Hz as (lz & <- & Hz). specialize (Hok lz Hz).
    unfold lst_ok, U64 in Hok. lia. }
  rewrite Hen.
  match type of Op with _ = Some ?q => destruct (end_exact E' C' w2 q _ j _ rd _ dst (skipn 1 da) Op eq_refl Ol Or Hn1) as (wz & w3 & Hz & Hx) end.
  - exact Mj.
  - rewrite Hown. exact Cj.
  - exact Htok.
  - unfold total in Hvt. rewrite Hp1 in Hvt. exact Hvt.
  - exists wz, w3. split; [exact Hz|]. cbn [rebalance_authority set_rebalancing set_total sol_value_calculator set_sol_value] in Hx.
    rewrite Hx. unfold total. rewrite Hp1. cbn [total_sol_value set_rebalancing set_total sol_value set_sol_value]. f_equal. lia.
Qed.

End Pair.

(* ------------------------------------------------------------------ *)
(** * The tool's view *)
Section View.
Context (R : RatioLib) (dp : Deploy) (D : Derive) (lsts : list SanctumLst) (w : World) (pw : PWorld)
  (l : list LstState) (ps : PoolState) (TS : tool_setting R dp D lsts w pw l ps).

Lemma only_truthful ks m : truthful w pw m -> truthful w pw (only_these ks m).
Proof. intros H k a. unfold only_these. destruct (existsb _ _); [apply H|discriminate]. Qed.
Lemma only_in ks (m : AccMap) k : In k ks -> only_these ks m k = m k.
Proof.
  intros H. unfold only_these. assert (existsb (Z.eqb k) ks = true) as ->; [|reflexivity].
  apply existsb_exists. exists k. split; [exact H|apply Z.eqb_refl].
Qed.

(** Updating from truthful accounts keeps the list and the pool, when they are the chain's already. *)
Lemma update_keeps m S : truthful w pw m -> jp_list S = l -> jp_pool S = Some ps -> length (jp_data S) = length l ->
  let S' := fst (update_full dp D m S) in
  jp_list S' = l /\ jp_pool S' = Some ps /\ jp_epoch S' = jp_epoch S /\
  jp_data S' = data_after dp D m l (jp_data S) /\
  (snd (update_full dp D m S) = Ok tt -> forall ls ld, In (ls, Some ld) (combine l (jp_data S)) ->
     snd (update_lst_data dp D m ls ld) = Ok tt).
Proof.
  intros Ht Hl Hp Hd. unfold update_full, update_lst_data_list.
  destruct (update_data_from_spec dp D m l (jp_data S) (eq_sym Hd)) as (U1 & U2). rewrite Hl.
  destruct (update_data_from dp D m l (jp_data S)) as [d r1]. cbn [fst snd] in U1, U2. subst d.
  set (S1 := set_data S (data_after dp D m l (jp_data S))).
  assert (HS1 : jp_list S1 = l /\ jp_pool S1 = Some ps /\ jp_epoch S1 = jp_epoch S /\ jp_data S1 = data_after dp D m l (jp_data S)) by auto.
  clearbody S1.
  assert (HS2 : exists S2 r2, update_pricing_prog dp m S1 = (S2, r2) /\ jp_list S2 = l /\ jp_pool S2 = Some ps /\ jp_epoch S2 = jp_epoch S /\
    jp_data S2 = data_after dp D m l (jp_data S)).
  { unfold update_pricing_prog. destruct (jp_pricing S1); [destruct (kf_update dp m k) as [pp r]|]; eexists _, _; (split; [reflexivity|exact HS1]). }
  destruct HS2 as (S2 & r2 & -> & HS2). clear HS1.
  assert (HS3 : exists S3 r3, update_lst_state_list dp m S2 = (S3, r3) /\ jp_list S3 = l /\ jp_pool S3 = Some ps /\ jp_epoch S3 = jp_epoch S /\
    jp_data S3 = data_after dp D m l (jp_data S)).
  { unfold update_lst_state_list. destruct HS2 as (A & B & C & Dd). destruct (m LST_STATE_LIST_ID) as [x|] eqn:Em; [|eexists _, _; split; [reflexivity|auto]].
    destruct x; try (eexists _, _; split; [reflexivity|auto]; fail).
    apply Ht, chain_list in Em. pose proof (ts_list _ _ _ _ _ _ _ _ TS) as Hlw. assert (l0 = l) as -> by congruence.
    rewrite A, Nat.eqb_refl. assert (Hall : forallb (fun '(o, n) => same_entry o n) (combine l l) = true).
    { apply forallb_forall. intros (o & n) Hin. assert (o = n) as ->.
      { clear -Hin. induction l as [|x t IH]; cbn in Hin; [tauto|]. destruct Hin as [[= <- <-]|Hin]; auto. }
      unfold same_entry. rewrite !Z.eqb_refl. reflexivity. }
    rewrite Hall. cbn [andb]. eexists _, _. split; [reflexivity|]. cbn. auto. }
  destruct HS3 as (S3 & r3 & -> & HS3). clear HS2.
  assert (HS4 : exists S4 r4, update_pool_state dp m S3 = (S4, r4) /\ jp_list S4 = l /\ jp_pool S4 = Some ps /\ jp_epoch S4 = jp_epoch S /\
    jp_data S4 = data_after dp D m l (jp_data S)).
  { unfold update_pool_state. destruct HS3 as (A & B & C & Dd). destruct (m POOL_STATE_ID) as [x|] eqn:Em; [|eexists _, _; split; [reflexivity|auto]].
    destruct x; try (eexists _, _; split; [reflexivity|auto]; fail).
    apply Ht, chain_pool in Em. pose proof (ts_pool _ _ _ _ _ _ _ _ TS) as Hpw. assert (ps0 = ps) as -> by congruence.
    match goal with |- context [if ?b then _ else _] => destruct b end; [|eexists _, _; split; [reflexivity|cbn; auto]].
    destruct (try_pricing_prog dp ps (jp_list S3)) as [pp|]; [destruct (kf_update dp m pp) as [pp' r]|]; eexists _, _; split; try reflexivity; cbn; auto. }
  destruct HS4 as (S4 & r4 & -> & HS4). clear HS3.
  assert (HS5 : exists S5 r5, update_lp_token_supply m S4 = (S5, r5) /\ jp_list S5 = l /\ jp_pool S5 = Some ps /\ jp_epoch S5 = jp_epoch S /\
    jp_data S5 = data_after dp D m l (jp_data S)).
  { unfold update_lp_token_supply. destruct HS4 as (A & B & C & Dd). rewrite B.
    assert (Hgo : forall S5 (r5 : res unit), jp_list S5 = jp_list S4 -> jp_pool S5 = jp_pool S4 -> jp_epoch S5 = jp_epoch S4 -> jp_data S5 = jp_data S4 ->
      exists S6 r6, (S5, r5) = (S6, r6) /\ jp_list S6 = l /\ jp_pool S6 = Some ps /\ jp_epoch S6 = jp_epoch S /\ jp_data S6 = data_after dp D m l (jp_data S)).
    { intros S5 r5 ? ? ? ?. exists S5, r5. split; [reflexivity|]. repeat split; congruence. }
    destruct (m (lp_token_mint ps)) as [[]|]; apply Hgo; reflexivity. }
  destruct HS5 as (S5 & r5 & -> & (A & B & C & Dd)). cbn [fst snd].
  split; [exact A|]. split; [exact B|]. split; [exact C|]. split; [exact Dd|].
  intros Hok. apply U2. apply and_ok in Hok as (Hok & _). apply and_ok in Hok as (Hok & _). apply and_ok in Hok as (Hok & _). apply and_ok in Hok as (Hok & _). exact Hok.
Qed.

Lemma find_by_mint (L : list SanctumLst) s m : NoDup (map sl_mint L) -> In s L -> sl_mint s = m -> find (fun s => sl_mint s =? m) L = Some s.
Proof.
  intros Hn Hin <-. induction L as [|x t IH]; cbn in *; [tauto|]. inversion_clear Hn as [|? ? Hx Ht].
  destruct (Z.eqb_spec (sl_mint x) (sl_mint s)) as [E|N].
  - destruct Hin as [->|Hin]; [reflexivity|]. exfalso. apply Hx. rewrite E. now apply in_map.
  - destruct Hin as [->|Hin]; [congruence|]. auto.
Qed.

(** What the tool knows of an LST it asked for and can quote. *)
Lemma fetched_lst a b more SP s ls ld c :
  cli_spool dp D lsts l ps (pw_epoch pw) a b more (chain_account w pw) = Ok SP ->
  In s lsts -> sl_mint s = a \/ sl_mint s = b -> find_ready_lst SP (sl_mint s) = Ok (ls, ld) ->
  kn_calc (pw_epoch pw) (ld_calc ld) = Ok c ->
  In ls l /\ ls_mint ls = sl_mint s /\ entry_in_sync dp D w pw ls ld /\
  calc_accounts_of dp s = Some (kn_ix_accounts dp (ld_calc ld)) /\ sl_token_program s = w_owner w (sl_mint s).
Proof.
  intros Hc Hin Hpk Hf Hk. unfold cli_spool in Hc. apply bind_ok in Hc as (S0 & H0 & Hc).
  unfold from_init_accounts in H0. apply bind_ok in H0 as (pp & _ & [= <-]).
  match type of Hc with context [update_full dp D ?m0 ?s0] => set (m := m0) in *; set (S0 := s0) in * end.
  assert (Htr : truthful w pw m) by (apply only_truthful; intros k x Hkx; exact Hkx).
  assert (Hlen0 : length (jp_data S0) = length l) by (cbn; apply map_length).
  pose proof (update_keeps m S0 Htr eq_refl eq_refl Hlen0) as (K1 & _ & _ & K4 & K5). cbn zeta in K1, K4.
  destruct (update_full dp D m S0) as [S1 r]. cbn [fst snd] in K1, K4, K5. apply bind_ok in Hc as ([] & Hr & [= ->]). specialize (K5 Hr).
  unfold find_ready_lst in Hf. rewrite K1, K4 in Hf.
  destruct (find_ready_from_spec SP _ _ _ _ _ Hf 0) as (n & H1 & H2 & H3). apply find_lst_spec in H1 as (_ & _ & Hm).
  assert (Hd0 : jp_data S0 = map (try_lst_data dp lsts) l) by reflexivity. rewrite Hd0 in *.
  assert (Hx : exists ld0, try_lst_data dp lsts ls = Some ld0 /\ ld = fst (update_lst_data dp D m ls ld0)).
  { unfold data_after in H3. pose proof (map_nth_error (try_lst_data dp lsts) _ _ H2) as H2'.
    pose proof (nth_combine _ _ _ _ _ H2 H2') as Hcb.
    rewrite (map_nth_error _ _ _ Hcb) in H3. destruct (try_lst_data dp lsts ls) as [ld0|]; [|discriminate].
    cbn in H3. injection H3 as <-. eauto. }
  destruct Hx as (ld0 & Ht0 & ->).
  assert (Hcb : In (ls, Some ld0) (combine l (map (try_lst_data dp lsts) l))).
  { apply nth_error_In with (n := n). apply nth_combine; [exact H2|]. rewrite (map_nth_error _ _ _ H2). congruence. }
  specialize (K5 _ _ Hcb).
  pose proof (ts_derive _ _ _ _ _ _ _ _ TS) as HD. pose proof (ts_reach _ _ _ _ _ _ _ _ TS) as HR.
  pose proof (ts_list _ _ _ _ _ _ _ _ TS) as Hl. pose proof (ts_pool _ _ _ _ _ _ _ _ TS) as Hp.
  destruct (reachable_ata D HD w HR) as (_ & Hat & _). specialize (Hat l Hl). rewrite Forall_forall in Hat.
  pose proof (Hat ls (nth_error_In _ _ H2)) as Hacc.
  pose proof (try_lst_data_ok dp D lsts w ls ld0 (ts_known _ _ _ _ _ _ _ _ TS) Hacc Ht0) as Hok.
  assert (Hasked : forall k, In k (lst_accounts_to_update dp D ls (Some ld0)) -> m k = chain_account w pw k).
  { intros k Hk0. unfold m. apply only_in. apply in_or_app. left. unfold accounts_to_update_filtered. apply in_flat_map.
    exists (ls, Some ld0). split; [exact Hcb|].
    assert ((ls_mint ls =? a) || (ls_mint ls =? b) = true) as ->; [|exact Hk0].
    rewrite Hm. destruct Hpk as [->| ->]; rewrite Z.eqb_refl; [reflexivity|apply orb_true_r]. }
  (* the known LST the entry was made from is [s] *)
  pose proof (find_by_mint lsts s (ls_mint ls) (ts_once _ _ _ _ _ _ _ _ TS) Hin (eq_sym Hm)) as Hfind.
  destruct (ts_known _ _ _ _ _ _ _ _ TS s Hin) as (Hprog & Hkind).
  unfold try_lst_data in Ht0. rewrite Hfind in Ht0.
  assert (Hnone : ld_calc ld0 = KnWsol \/ match ld_calc ld0 with KnLido None | KnMarinade None | KnSpl _ _ _ None => True | _ => False end).
  { destruct (sl_pool s); try discriminate; destruct (_ =? _) in Ht0; try discriminate; injection Ht0 as <-; cbn; auto. }
  assert (Hcalc0 : calc_accounts_of dp s = Some (kn_ix_accounts dp (ld_calc ld0))).
  { unfold calc_accounts_of. destruct (sl_pool s) as [| | |wh pool|]; try discriminate; destruct (_ =? _) in Ht0; try discriminate;
      injection Ht0 as <-; cbn [ld_calc kn_ix_accounts spl_cfg]; try reflexivity. rewrite Hm. destruct wh; reflexivity. }
  assert (Hsame : kn_ix_accounts dp (ld_calc (fst (update_lst_data dp D m ls ld0))) = kn_ix_accounts dp (ld_calc ld0)).
  { assert (G : kn_ix_accounts dp (fst (kn_update dp m (ld_calc ld0))) = kn_ix_accounts dp (ld_calc ld0)).
    { destruct (ld_calc ld0) as [x|x|x1 x2 x3 x|]; cbn [kn_update]; try reflexivity;
        match goal with |- context [m ?k] => destruct (m k) as [[]|] end; try reflexivity;
        match goal with d : PData |- _ => destruct d end; try reflexivity.
      destruct (negb _); [reflexivity|]. destruct (negb _); reflexivity. }
    rewrite <- G. unfold update_lst_data. destruct (kn_update dp m (ld_calc ld0)) as [c0 r0]. cbn [fst].
    destruct (pool_reserves_account D ls ld0) as [ata|]; [destruct (m ata) as [[]|]|]; reflexivity. }
  split; [eapply nth_error_In, H2|]. split; [exact Hm|].
  assert (Hns : ld_calc ld0 <> KnWsol -> pdata pw (stake_pool_account dp (ld_calc ld0)) <> PEmpty).
  { intros Hnw. destruct Hnone as [Hnone|Hnone]; [congruence|]. intros Hem.
    assert (Hcl : ld_calc (fst (update_lst_data dp D m ls ld0)) = fst (kn_update dp m (ld_calc ld0))).
    { unfold update_lst_data. destruct (kn_update dp m (ld_calc ld0)) as [c0 r0]. cbn [fst].
      destruct (pool_reserves_account D ls ld0) as [ata|]; [destruct (m ata) as [[]|]|]; reflexivity. }
    rewrite Hcl in Hk. clear Hcl. 
    assert (Hch : forall k d, m k = Some (FData d) -> pdata pw k = d /\ d <> PEmpty) by (intros k d Hkd; apply Htr in Hkd; apply chain_data in Hkd; exact Hkd).
    destruct (ld_calc ld0) as [[x|]|[x|]|x1 x2 x3 [x|]|]; try tauto; cbn [stake_pool_account] in Hem; cbn [kn_update] in Hk;
      match type of Hk with context [m ?k] => destruct (m k) as [[]|] eqn:Em; try discriminate end;
      match goal with d : PData |- _ => apply Hch in Em as (Em & Hne); rewrite Hem in Em; congruence end. }
  split; [|split; [rewrite Hsame; exact Hcalc0|]].
  - pose proof (update_data_fresh dp D HD w pw m ls ld0 ltac:(congruence) ltac:(congruence) Hok Hasked Hns K5) as (F1 & F2).
    destruct Hok as ((O1 & O2) & O3 & O4 & O5).
    destruct (update_data_same dp D m ls ld0) as (S1' & S2' & S3'). cbn in S1', S2', S3'.
    constructor.
    + rewrite S1'. exact O1.
    + rewrite S2'. exact O2.
    + exact F1.
    + rewrite S3'. exact O3.
    + rewrite F2, S1', O1; [reflexivity|]. rewrite S1', O1.
      destruct Hacc as (_ & _ & rr & ff & G1 & _ & G3 & _). unfold reserves_of. rewrite G1. exact G3.
  - apply Hprog. rewrite <- Hm. apply Hacc.
Qed.

Lemma fetched_pool a b more SP :
  cli_spool dp D lsts l ps (pw_epoch pw) a b more (chain_account w pw) = Ok SP ->
  jp_list SP = l /\ jp_pool SP = Some ps /\ jp_epoch SP = pw_epoch pw.
Proof.
  intros Hc. unfold cli_spool in Hc. apply bind_ok in Hc as (S0 & H0 & Hc).
  unfold from_init_accounts in H0. apply bind_ok in H0 as (pp & _ & [= <-]).
  match type of Hc with context [update_full dp D ?m0 ?s0] => set (m := m0) in *; set (S0 := s0) in * end.
  assert (Htr : truthful w pw m) by (apply only_truthful; intros k x Hkx; exact Hkx).
  assert (Hlen0 : length (jp_data S0) = length l) by (cbn; apply map_length).
  pose proof (update_keeps m S0 Htr eq_refl eq_refl Hlen0) as (K1 & K2 & K3 & _). cbn zeta in K1, K2, K3.
  destruct (update_full dp D m S0) as [S1 r]. cbn [fst] in *. apply bind_ok in Hc as ([] & _ & [= ->]). auto.
Qed.

(** The builders see the chain. *)
Lemma view_start SP src tsrc dst tdst wt am mn mx sa da : jp_list SP = l -> jp_pool SP = Some ps -> src <> dst ->
  tsrc = w_owner w src -> tdst = w_owner w dst ->
  client_start_rebalance D (cli_view SP src tsrc dst tdst) wt LST_STATE_LIST_ID POOL_STATE_ID src dst am mn mx sa da =
  client_start_rebalance D w wt LST_STATE_LIST_ID POOL_STATE_ID src dst am mn mx sa da.
Proof.
  intros A B Hne C E. pose proof (ts_list _ _ _ _ _ _ _ _ TS) as Hl. pose proof (ts_pool _ _ _ _ _ _ _ _ TS) as Hp.
  unfold client_start_rebalance.
  assert (E1 : try_lst_state_list (cli_view SP src tsrc dst tdst) LST_STATE_LIST_ID = try_lst_state_list w LST_STATE_LIST_ID).
  { rewrite (list_ok w l Hl). unfold try_lst_state_list, cli_view; cbn [w_list]. rewrite upd_same, A. reflexivity. }
  assert (E2 : try_pool_state (cli_view SP src tsrc dst tdst) POOL_STATE_ID = try_pool_state w POOL_STATE_ID).
  { rewrite (ClientProofs.pool_ok w ps Hp). unfold try_pool_state, cli_view; cbn [w_pool]. rewrite upd_same, B. reflexivity. }
  assert (E3 : w_owner (cli_view SP src tsrc dst tdst) src = w_owner w src) by (unfold cli_view; cbn [w_owner]; rewrite Z.eqb_refl; auto).
  assert (E4 : w_owner (cli_view SP src tsrc dst tdst) dst = w_owner w dst).
  { unfold cli_view; cbn [w_owner]. destruct (Z.eqb_spec dst src); [congruence|]. rewrite Z.eqb_refl. auto. }
  rewrite E1, E2, E3, E4. reflexivity.
Qed.

End View.


(* ------------------------------------------------------------------ *)
(** * The calculators, asked on chain *)
Section Asked.
Context (R : RatioLib) (dp : Deploy) (pw : PWorld) (other : Env).
Hypothesis HT : pools_typed pw.
Hypothesis HDp : deploy_ok dp.

Lemma known_env k w x v : calc_in_sync dp pw k -> ask_l2s R dp pw other w k x = Ok v ->
  exists c, kn_calc (pw_epoch pw) k = Ok c /\ calc_typed c /\
    forall w' x', ask_l2s R dp pw other w' k x' = calc_lst_to_sol c x'.
Proof.
  intros Hs. unfold ask_l2s. cbn [e_lst_to_sol deployed_env]. unfold calc_answer.
  destruct (wsol_or_program dp HDp k) as [->|(cfg & Hc & ->)].
  - rewrite (wsol_known dp HDp). intros _. exists CWsol. split; [reflexivity|]. split; [exact I|]. intros _ x'. reflexivity.
  - rewrite (calc_cfg_known dp HDp), Hc. cbn [calc_process]. intros H. apply bind_ok in H as ((q & r) & H & _).
    apply bind_ok in H as (c & Hq & _). exists c.
    assert (Hk : kn_calc (pw_epoch pw) k = Ok c) by (apply verify_common_iff in Hq; apply (quotable_known dp pw HDp k cfg c Hc Hs Hq)).
    split; [exact Hk|]. split; [eapply kn_calc_typed; eauto|]. intros _ x'. rewrite Hq. cbn [bind].
    destruct (calc_lst_to_sol c x'); reflexivity.
Qed.

Lemma wsol_env w x : e_lst_to_sol (deployed_env R dp pw other) w (dp_wsol dp) WSOL_MINT [] x = Ok (x, x).
Proof. cbn [e_lst_to_sol deployed_env]. unfold calc_answer. rewrite Z.eqb_refl. reflexivity. Qed.
End Asked.

Lemma ix_accounts_ok dp k : suffix_ok 1 (kn_ix_accounts dp k).
Proof. unfold suffix_ok, len, U8_MAX. destruct k; cbn; lia. Qed.
Lemma sat_sub_ge a b : a <= b + sat_sub a b.
Proof. unfold sat_sub. destruct (Z.leb_spec b a); lia. Qed.
Lemma others_totals D w w' : others D w w' -> total w' = total w /\ forall j, recorded w' j = recorded w j.
Proof. intros H. destruct (others_ctl _ _ _ H) as (A & B & _). unfold total, recorded. rewrite A, B. auto. Qed.
Lemma balance_u64 D w k : derive_ok D -> reachable D w -> U64 (balance w k).
Proof.
  intros HD HR. destruct (proj1 (reachable_inv D HD w HR)) as (l & au & _ & _ & _ & _ & _ & Hu & _).
  unfold balance. destruct (w_tok w k) as [t|] eqn:Et; [|unfold U64, U64_MAX; lia]. apply Hu in Et. exact Et.
Qed.

Section Plan.
Context (R : RatioLib) (dp : Deploy) (D : Derive) (lsts : list SanctumLst) (w : World) (pw : PWorld)
  (l : list LstState) (ps : PoolState) (TS : tool_setting R dp D lsts w pw l ps).

Lemma listed_calc i m c ls : listed_at w i m c -> In ls l -> ls_mint ls = m -> c = sol_value_calculator ls.
Proof.
  intros (l' & ls' & Hl' & Hn & Hm & <-) Hin Hm'. rewrite (ts_list _ _ _ _ _ _ _ _ TS) in Hl'. injection Hl' as <-.
  destruct (proj1 (reachable_inv D (ts_derive _ _ _ _ _ _ _ _ TS) w (ts_reach _ _ _ _ _ _ _ _ TS))) as (lq & au & Hlq & _ & Hnd & _).
  rewrite (ts_list _ _ _ _ _ _ _ _ TS) in Hlq. injection Hlq as <-.
  apply In_nth_error in Hin as (n & Hin).
  assert (n = Z.to_nat i).
  { assert (E : nth_error (map ls_mint l) n = nth_error (map ls_mint l) (Z.to_nat i)).
    { rewrite (map_nth_error ls_mint _ _ Hin), (map_nth_error ls_mint _ _ Hn). congruence. }
    apply NoDup_nth_error in E; auto. apply nth_error_Some. rewrite (map_nth_error ls_mint _ _ Hin). discriminate. }
  subst n. congruence.
Qed.
Lemma wsol_calc i c : listed_at w i WSOL_MINT c -> c = dp_wsol dp.
Proof.
  intros (l' & ls' & Hl' & Hn & Hm & <-). rewrite (ts_list _ _ _ _ _ _ _ _ TS) in Hl'. injection Hl' as <-.
  apply (ts_wsol _ _ _ _ _ _ _ _ TS); [eapply nth_error_In; exact Hn|exact Hm].
Qed.

Lemma rebal_ixs_ok SP wt src tsrc dst tdst am sa da t e : jp_list SP = l -> jp_pool SP = Some ps -> src <> dst ->
  tsrc = w_owner w src -> tdst = w_owner w dst ->
  rebal_ixs D SP wt src tsrc dst tdst am sa da = Ok (t, e) ->
  client_start_rebalance D w wt LST_STATE_LIST_ID POOL_STATE_ID src dst am 0 U64_MAX sa da = Ok t /\
  client_end_rebalance t = Ok e.
Proof.
  intros A B Hne C Dd H. unfold rebal_ixs in H. apply bind_ok in H as (t' & Ht & H). apply bind_ok in H as (e' & He & [= -> ->]).
  rewrite (view_start R dp D lsts w pw l ps TS) in Ht by assumption. auto.
Qed.

(** The whole pair, for a source and a destination of the tool. *)
Lemma plan_core SP wt src tsrc dst tdst am sa da t e E C w1 : jp_list SP = l -> jp_pool SP = Some ps -> src <> dst ->
  tsrc = w_owner w src -> tdst = w_owner w dst -> suffix_ok 1 sa -> suffix_ok 1 da -> U64 am ->
  rebal_ixs D SP wt src tsrc dst tdst am sa da = Ok (t, e) -> pdas_do_not_sign (ti_accs t) -> run D E C w t = Ok w1 ->
  let rs := reserves_of D w src in let rd := reserves_of D w dst in
  exists i j cs cd wb wc vs0 hs0 vd0 hd0 vs1 hs1,
    listed_at w i src cs /\ listed_at w j dst cd /\ 0 <= am <= balance w rs /\
    e_lst_to_sol E w cs src (skipn 1 sa) (balance w rs) = Ok (vs0, hs0) /\
    e_lst_to_sol E wb cd dst (skipn 1 da) (balance w rd) = Ok (vd0, hd0) /\
    e_lst_to_sol E wc cs src (skipn 1 sa) (balance w rs - am + on rs wt am) = Ok (vs1, hs1) /\
    U64 vs0 /\ U64 vd0 /\ U64 vs1 /\
    recorded w1 j = vd0 /\ balance w1 rd = balance w rd /\
    total w1 + vs0 - vs1 <= U64_MAX /\ vs0 + vd0 <= U64_MAX /\
    (forall w2 E' C', others D w1 w2 -> exists wz w3, same_tokens w2 wz /\ run D E' C' w2 e =
       end_outcome (e_lst_to_sol E' wz cd dst (skipn 1 da) (balance w2 rd)) (total w1) vd0 (vs0 - vs1) w3).
Proof.
  intros A B Hne Hc Hd Hs Hs' Ha H Hsig Hrun rs rd.
  destruct (rebal_ixs_ok _ _ _ _ _ _ _ _ _ _ _ A B Hne Hc Hd H) as (Ht & He).
  apply (pair_core D (ts_derive _ _ _ _ _ _ _ _ TS) w l ps wt src dst am 0 U64_MAX sa da t e E C w1); auto; try apply TS;
    unfold U64, U64_MAX; lia.
Qed.
End Plan.
