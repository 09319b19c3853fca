(** C52: concrete runs of the sync commands, and one that skips what it should not. *)
From Coq Require Import ZArith List Bool Lia.
From Verif Require Import Base Ratio Calc State Controller Spec InvProofs ShapeProofs Concrete ConcreteReach PropSync Serde Periph
  Deploy Client ClientSpec Known Jup Cli CliProofs CliSync PropJup PropCli PropCliCase PropCliSync.
Import ListNotations.
Open Scope Z_scope.

(** The calculators read the stake pools, not the controller's accounts. *)
Lemma deployed_reads_none R dp pw other : reads_no_controller_accounts other ->
  reads_no_controller_accounts (deployed_env R dp pw other).
Proof.
  intros H w w' H1 H2 H3 H4 c m a x. cbn [deployed_env e_lst_to_sol]. rewrite (H w w' H1 H2 H3 H4). reflexivity.
Qed.
Lemma E0_reads_none : reads_no_controller_accounts E0.
Proof. intros w w' _ _ _ _ c m a x. reflexivity. Qed.
Lemma Ev_reads_none : reads_no_controller_accounts Ev.
Proof. apply deployed_reads_none, E0_reads_none. Qed.

Definition RZ := sync_all_cmd dp1 D0 Ev true lstsv lv pv V7.
Definition VZ : World := get RZ.
Lemma RZ_ok : sync_all_cmd dp1 D0 Ev true lstsv lv pv V7 = Ok VZ.
Proof. unfold VZ, RZ. apply okb_get. vm_compute. reflexivity. Qed.
Definition RZ' := sync_all_cmd dp1 D0 Ev false lstsv lv pv V7.
Definition VZ' : World := get RZ'.
Lemma RZ'_ok : sync_all_cmd dp1 D0 Ev false lstsv lv pv V7 = Ok VZ'.
Proof. unfold VZ', RZ'. apply okb_get. vm_compute. reflexivity. Qed.

Lemma V7_list : the_list V7 = Some lv. Proof. vm_compute. reflexivity. Qed.
Lemma V7_pool : the_pool V7 = Some pv. Proof. vm_compute. reflexivity. Qed.
Lemma fell_none : none_fell dp1 D0 Ev lstsv V7 lv.
Proof.
  intros ls metas v Hin Hm (r & hi & _ & Ha).
  assert (Hl : lv = [mkLst 0 255 255 0 MA CA; mkLst 0 255 255 0 MB CB; mkLst 0 255 255 0 WSOL_MINT 45]) by (vm_compute; reflexivity).
  assert (Hk : exists k, sol_value_calculator ls = kn_program_id dp1 k /\ sol_value ls = 0).
  { rewrite Hl in Hin. cbn [In] in Hin.
    destruct Hin as [<-|[<-|[<-|[]]]]; [exists (KnSpl SplMain MA 514 None)|exists (KnSpl SanctumSpl MB 524 None)|exists KnWsol]; split; reflexivity. }
  destruct Hk as (k & Ek & ->). rewrite Ek in Ha.
  apply (deployed_u64 ref_ratio_lib dp1 pwv E0 ref_ratio_lib_ok dp1_ok pwv_typed) in Ha; [unfold U64 in Ha; lia|].
  apply (balance_u64 D0); [exact D0_ok|exact V7_reach].
Qed.

(** From recorded values of zero, both with and without --force. *)
Example C52_all_case :
  derive_ok D0 /\ reads_no_controller_accounts Ev /\ reachable D0 V7 /\ the_list V7 = Some lv /\ the_pool V7 = Some pv /\
  none_fell dp1 D0 Ev lstsv V7 lv /\
  sync_all_cmd dp1 D0 Ev true lstsv lv pv V7 = Ok VZ /\ sync_all_cmd dp1 D0 Ev false lstsv lv pv V7 = Ok VZ' /\
  map sol_value lv = [0; 0; 0] /\
  option_map (map sol_value) (the_list VZ) = Some [1500; 9990; 3000] /\
  option_map (map sol_value) (the_list VZ') = Some [1500; 9990; 3000].
Proof.
  split; [exact D0_ok|]. split; [exact Ev_reads_none|]. split; [exact V7_reach|]. split; [exact V7_list|].
  split; [exact V7_pool|]. split; [exact fell_none|]. split; [exact RZ_ok|]. split; [exact RZ'_ok|].
  split; [|split]; vm_compute; reflexivity.
Qed.

(** One LST of the file. *)
Definition metas_a : list Meta := match calc_accounts_of dp1 lst_a with Some x => x | None => [] end.
Definition RU := sync_cmd D0 Ev false lv pv V7 MA SPL_TOKEN_ID metas_a.
Definition VU : World := get RU.
Example C52_sync_case :
  sync_cmd D0 Ev false lv pv V7 MA SPL_TOKEN_ID metas_a = Ok VU /\ Forall (fun a => is_signer a = false) metas_a /\
  metas_a <> [] /\ option_map (map sol_value) (the_list VU) = Some [1500; 0; 0].
Proof.
  split. { unfold VU, RU. apply okb_get. vm_compute. reflexivity. }
  split; [vm_compute; repeat constructor|]. split; [vm_compute; discriminate|vm_compute; reflexivity].
Qed.

(** Afterwards MA's pool gains what MB's loses: the total would stay the same, so sync-all without --force sends nothing
    and leaves both at their old values. *)
Definition pool_a3 : SplPool := mkSpl true MA 7 1600000 1000000 0 0.
Definition pool_b3 : SplPool := mkSpl true MB 7 1980000 1000000 1 1000.
Definition pwc : PWorld := put_acc (put_acc pwv 514 (mkPAcc 510 (PSpl pool_a3))) 524 (mkPAcc 520 (PSpl pool_b3)).
Definition Ec : Env := deployed_env ref_ratio_lib dp1 pwc E0.
Definition lz : list LstState := the_list_or VZ.
Definition pz : PoolState := match the_pool VZ with Some p => p | None => pv end.
Definition RC := sync_all_cmd dp1 D0 Ec false lstsv lz pz VZ.
Definition VC : World := get RC.
Definition RCf := sync_all_cmd dp1 D0 Ec true lstsv lz pz VZ.
Definition VCf : World := get RCf.
Theorem C52_all_cancel :
  derive_ok D0 /\ reads_no_controller_accounts Ec /\ reachable D0 VZ /\ the_list VZ = Some lz /\ the_pool VZ = Some pz /\
  sync_all_cmd dp1 D0 Ec false lstsv lz pz VZ = Ok VC /\ sync_all_cmd dp1 D0 Ec true lstsv lz pz VZ = Ok VCf /\
  option_map (map sol_value) (the_list VC) = Some [1500; 9990; 3000] /\
  option_map (map sol_value) (the_list VCf) = Some [1600; 9890; 3000] /\
  ~ all_in_sync dp1 D0 Ec lstsv VZ VC lz pz.
Proof.
  assert (Hr : reachable D0 VZ) by (apply (as_reach _ _ _ _ _ _ _ _ (C52_all_forced dp1 D0 Ev lstsv V7 lv pv VZ D0_ok Ev_reads_none V7_reach V7_list V7_pool RZ_ok))).
  assert (Hl : the_list VZ = Some lz) by (vm_compute; reflexivity).
  assert (Hp : the_pool VZ = Some pz) by (vm_compute; reflexivity).
  assert (Hf : sync_all_cmd dp1 D0 Ec true lstsv lz pz VZ = Ok VCf) by (unfold VCf, RCf; apply okb_get; vm_compute; reflexivity).
  assert (HE : reads_no_controller_accounts Ec) by (apply deployed_reads_none, E0_reads_none).
  assert (H1 : option_map (map sol_value) (the_list VC) = Some [1500; 9990; 3000]) by (vm_compute; reflexivity).
  assert (H2 : option_map (map sol_value) (the_list VCf) = Some [1600; 9890; 3000]) by (vm_compute; reflexivity).
  split; [exact D0_ok|]. split; [exact HE|]. split; [exact Hr|]. split; [exact Hl|]. split; [exact Hp|].
  split. { unfold VC, RC. apply okb_get. vm_compute. reflexivity. }
  split; [exact Hf|]. split; [exact H1|]. split; [exact H2|].
  intros [(l1 & L1 & _ & _ & A1) _ _].
  destruct (C52_all_forced dp1 D0 Ec lstsv VZ lz pz VCf D0_ok HE Hr Hl Hp Hf) as [(l2 & L2 & _ & _ & A2) _ _].
  rewrite L1 in H1. rewrite L2 in H2. cbn [option_map] in H1, H2.
  assert (Hn : exists ls, nth_error lz 0 = Some ls /\ ls_mint ls = MA) by (eexists; split; vm_compute; reflexivity).
  destruct Hn as (ls & Hn & Hm).
  destruct (A1 0%nat ls Hn) as (v1 & N1 & _ & T1). destruct (A2 0%nat ls Hn) as (v2 & N2 & _ & T2).
  assert (Hon : on_file lstsv (ls_mint ls)) by (rewrite Hm; exists lst_a; split; [right; right; left; reflexivity|reflexivity]).
  destruct (T1 Hon) as (m1 & F1 & (r1 & h1 & R1 & Q1)). destruct (T2 Hon) as (m2 & F2 & (r2 & h2 & R2 & Q2)).
  rewrite F1 in F2. injection F2 as <-.
  assert (Er : r1 = r2) by (unfold PropSync.reserves_of in *; congruence). subst r2.
  rewrite Q1 in Q2. injection Q2 as Ev' _. destruct l1 as [|x l1]; [discriminate|]. destruct l2 as [|y l2]; [discriminate|].
  cbn [nth_error] in N1, N2. injection N1 as ->. injection N2 as ->. cbn [map set_sol_value sol_value] in H1, H2.
  injection H1 as H1 _. injection H2 as H2 _. rewrite Ev' in H1. rewrite H2 in H1. discriminate H1.
Qed.
