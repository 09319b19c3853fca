(** C55: cases. A history with mainnet's rent; the payer starts with 10 SOL. *)
From Coq Require Import ZArith List Bool Lia.
From Verif Require Import Base Ratio Calc State Controller Spec InvProofs Concrete ConcreteReach AdminSpec CliAdmin CliAdminSpec
  Periph PeriphSpec PropFlat PeriphCli PeriphCliSpec PropPeriphCli Rent RentSpec PropRent RentCli RentCliSpec PropRentCli.
Import ListNotations.
Open Scope Z_scope.

Definition rents0 : Rents := mkRents (fun n => 890880 + 6960 * n) (fun p _ => if p =? SPL_TOKEN_2022_ID then 170 else 165).
Lemma rents0_ok : rents_ok rents0.
Proof. split; unfold rents0; cbn [rent_for]; intros; lia. Qed.
Definition lam0 : Lam := fun k => match w_tok W0 k with Some _ => 3000000 | None => if k =? PAYER then 10000000000 else 0 end.
Definition getL (r : res (World * Lam)) : World * Lam := match r with Ok s => s | Err _ => (W0, lam0) end.
Definition PL C s accs ix := processL rents0 D0 E0 C s accs ix.
Definition S0 := (W0, lam0).
Definition S1 := getL (PL C0 S0 init_accs Initialize).
Definition S2 := getL (PL C0 S1 (add_accs MA RA FA CA SPL_TOKEN_ID) AddLst).
Definition add_mb := add_accs MB RB FB CB SPL_TOKEN_2022_ID.
Definition S3 := getL (PL C0 S2 add_mb AddLst).
Definition S4 := getL (PL C0 S3 add_auth_accs AddDisablePoolAuthority).
Definition rm_auth := [rw BF; sg ADMIN; ro USER; ro POOL_STATE_ID; rw DISABLE_POOL_AUTHORITY_LIST_ID].
Definition S5 := getL (PL C0 S4 rm_auth (RemoveDisablePoolAuthority 0)).
Definition S6 := getL (PL C0 S5 (liq_accs MA UA FA SPL_TOKEN_ID RA CA) (AddLiquidity add_args_a)).
Definition S7 := getL (PL C0 S6 (liq_accs MB UB FB SPL_TOKEN_2022_ID RB CB) (AddLiquidity add_args_b)).
Definition start0 := StartRebalance (mkStartReb 1 0 1 0 0 U64_MAX).
Definition S8 := getL (PL (reb_ctx 0) S7 start_accs start0).
Definition S9 := getL (PL (reb_ctx 1) S8 end_accs EndRebalance).
(** the second LST unlisted again *)
Definition rm_mb := [sg ADMIN; rw PAYER; ro MB; rw RB; rw FB; rw PROTOCOL_FEE_ID; ro POOL_STATE_ID; rw LST_STATE_LIST_ID; ro SPL_TOKEN_2022_ID].
Definition T4 := getL (PL C0 S3 rm_mb (RemoveLst 1)).

Lemma all_went : forallb okb
  [PL C0 S0 init_accs Initialize; PL C0 S1 (add_accs MA RA FA CA SPL_TOKEN_ID) AddLst; PL C0 S2 add_mb AddLst;
   PL C0 S3 add_auth_accs AddDisablePoolAuthority; PL C0 S4 rm_auth (RemoveDisablePoolAuthority 0);
   PL C0 S5 (liq_accs MA UA FA SPL_TOKEN_ID RA CA) (AddLiquidity add_args_a);
   PL C0 S6 (liq_accs MB UB FB SPL_TOKEN_2022_ID RB CB) (AddLiquidity add_args_b);
   PL (reb_ctx 0) S7 start_accs start0; PL (reb_ctx 1) S8 end_accs EndRebalance; PL C0 S3 rm_mb (RemoveLst 1)] = true.
Proof. vm_compute. reflexivity. Qed.
Lemma ok_getL r : okb r = true -> r = Ok (getL r).
Proof. destruct r; [reflexivity|discriminate]. Qed.
Lemma S0_reach : reachable_lam rents0 D0 S0.
Proof.
  exists S0. split; [|constructor]. split; [exact W0_genesis|]. split.
  { intros k. cbn. unfold lam0. destruct (w_tok W0 k); [lia|]. destruct (k =? PAYER); lia. }
  split.
  - intros k t H. unfold exempt, rents0. cbn [fst snd S0 rent_for token_size] in *. unfold lam0. rewrite H. destruct (_ =? SPL_TOKEN_2022_ID); lia.
  - intros k Hk. cbn [fst S0]. assert (X : forallb (fun k => match w_tok W0 k with None => true | Some _ => false end) controller_pdas = true) by (vm_compute; reflexivity).
    rewrite forallb_forall in X. specialize (X k Hk). destruct (w_tok W0 k); [discriminate|reflexivity].
Qed.
Lemma reachL C s accs ix : reachable_lam rents0 D0 s -> pdas_do_not_signb accs = true -> okb (PL C s accs ix) = true ->
  reachable_lam rents0 D0 (getL (PL C s accs ix)).
Proof.
  intros (s0 & G & St) Hp Hk. exists s0. split; [exact G|]. econstructor; [exact St|].
  eapply stepl_controller; [apply pdas_do_not_signb_ok, Hp|apply ok_getL, Hk].
Qed.
Ltac reachL_from H := apply reachL; [exact H|vm_compute; reflexivity|vm_compute; reflexivity].
Lemma S1_reach : reachable_lam rents0 D0 S1. Proof. unfold S1. reachL_from S0_reach. Qed.
Lemma S2_reach : reachable_lam rents0 D0 S2. Proof. unfold S2. reachL_from S1_reach. Qed.
Lemma S3_reach : reachable_lam rents0 D0 S3. Proof. unfold S3. reachL_from S2_reach. Qed.
Lemma S4_reach : reachable_lam rents0 D0 S4. Proof. unfold S4. reachL_from S3_reach. Qed.
Lemma S5_reach : reachable_lam rents0 D0 S5. Proof. unfold S5. reachL_from S4_reach. Qed.
Lemma S6_reach : reachable_lam rents0 D0 S6. Proof. unfold S6. reachL_from S5_reach. Qed.
Lemma S7_reach : reachable_lam rents0 D0 S7. Proof. unfold S7. reachL_from S6_reach. Qed.
Lemma S8_reach : reachable_lam rents0 D0 S8. Proof. unfold S8. reachL_from S7_reach. Qed.
Lemma S9_reach : reachable_lam rents0 D0 S9. Proof. unfold S9. reachL_from S8_reach. Qed.

Definition holds (s : World * Lam) (ks : list key) : list Z := map (snd s) ks.
Definition watched := [PAYER; POOL_STATE_ID; LST_STATE_LIST_ID; DISABLE_POOL_AUTHORITY_LIST_ID; REBALANCE_RECORD_ID; RA; FA; RB; FB; BF].
(** Each step of the example, to the lamport. *)
Example C55_case :
  holds S1 watched = [9997884160; 2115840; 0; 0; 0; 0; 0; 0; 0; 3000000] /\
  holds S2 watched = [9992357920; 2115840; 1447680; 0; 0; 2039280; 2039280; 0; 0; 3000000] /\
  holds S3 watched = [9987652960; 2115840; 2004480; 0; 0; 2039280; 2039280; 2074080; 2074080; 3000000] /\
  holds S4 watched = [9986539360; 2115840; 2004480; 1113600; 0; 2039280; 2039280; 2074080; 2074080; 3000000] /\
  holds S5 watched = [9986539360; 2115840; 2004480; 0; 0; 2039280; 2039280; 2074080; 2074080; 4113600] /\
  holds S8 watched = [9986539360; 2115839; 2004480; 0; 1; 2039280; 2039280; 2074080; 2074080; 4113600] /\
  holds S9 watched = [9986539360; 2115840; 2004480; 0; 0; 2039280; 2039280; 2074080; 2074080; 4113600] /\
  holds T4 watched = holds S2 watched.
Proof. vm_compute. repeat split; reflexivity. Qed.

(** The hypotheses of the listing's round trip hold between the second and the fourth state. *)
Example C55_listing_refunded_case : forall k, snd T4 k = snd S2 k.
Proof.
  assert (H1 : processL rents0 D0 E0 C0 S2 add_mb AddLst = Ok S3) by (unfold S3, PL; apply ok_getL; vm_compute; reflexivity).
  assert (H2 : processL rents0 D0 E0 C0 S3 rm_mb (RemoveLst 1) = Ok T4) by (unfold T4, PL; apply ok_getL; vm_compute; reflexivity).
  assert (Hn : pdas_do_not_sign add_mb) by (apply pdas_do_not_signb_ok; vm_compute; reflexivity).
  assert (Hf : forall k, k = key_at add_mb 3 \/ k = key_at add_mb 4 -> w_tok (fst S2) k = None /\ snd S2 k = 0).
  { intros k [-> | ->]; (split; vm_compute; reflexivity). }
  assert (Hl : forall l, the_list (fst S2) = Some l ->
     snd S2 LST_STATE_LIST_ID = match l with [] => 0 | _ => rent_for rents0 (80 * Z.of_nat (length l)) end).
  { assert (X : match the_list (fst S2) with Some ((_ :: _) as l) => Z.eqb (snd S2 LST_STATE_LIST_ID) (rent_for rents0 (80 * Z.of_nat (length l))) | _ => false end = true) by (vm_compute; reflexivity).
    intros l Hl. rewrite Hl in X. destruct l; [discriminate|]. apply Z.eqb_eq in X. exact X. }
  exact (C55_listing_refunded rents0 D0 rents0_ok D0_ok E0 C0 S2 add_mb S3 E0 C0 rm_mb 1 T4 S2_reach Hn H1 H2 eq_refl eq_refl eq_refl Hf Hl).
Qed.

(** A payer with one lamport too few, or a token account as payer, is refused; so is an unlisting that refunds an account
    being closed. *)
Definition poor (s : World * Lam) (x : Z) : World * Lam := (fst s, upd (snd s) PAYER x).
Example C55_refused_case :
  okb (PL C0 (poor S2 4704960) add_mb AddLst) = true /\ okb (PL C0 (poor S2 4704959) add_mb AddLst) = false /\
  owed rents0 (fst S2) (snd S2) add_mb AddLst = 4704960 /\
  okb (PL C0 S2 (sg ADMIN :: sw UA :: skipn 2 add_mb) AddLst) = false /\
  okb (PL C0 S3 (sg ADMIN :: rw RB :: skipn 2 rm_mb) (RemoveLst 1)) = false /\
  okb (PL C0 S3 (sg ADMIN :: rw BF :: skipn 2 rm_mb) (RemoveLst 1)) = true.
Proof. vm_compute. repeat split; reflexivity. Qed.
Example C55_never_stuck_case : affordable rents0 (fst S2) (snd S2) add_mb AddLst /\ affordable rents0 (fst S3) (snd S3) rm_mb (RemoveLst 1).
Proof. vm_compute. repeat split; discriminate. Qed.

(** Commands: the authority is the admin, the payer somebody else; refunds where told, or to the payer. *)
Definition cost (s : World * Lam) (payer auth : key) (c : Cmd) (ks : list key) : option (list Z) :=
  match commandL rents0 D0 E0 C0 s payer auth c with Ok s' => Some (map (fun k => snd s' k - snd s k) ks) | Err _ => None end.
Example C55_commands_case :
  cost S1 PAYER ADMIN (CAddLst MA CA) [PAYER; ADMIN; RA; FA; LST_STATE_LIST_ID] = Some [-5526240; 0; 2039280; 2039280; 1447680] /\
  cost S3 PAYER ADMIN (CRemoveLst None MB) [PAYER; BF; RB; FB; LST_STATE_LIST_ID] = Some [4704960; 0; -2074080; -2074080; -556800] /\
  cost S3 PAYER ADMIN (CRemoveLst (Some BF) MB) [PAYER; BF; RB; FB; LST_STATE_LIST_ID] = Some [0; 4704960; -2074080; -2074080; -556800] /\
  cost S3 PAYER ADMIN (CAddDisableAuth USER) [PAYER; ADMIN; DISABLE_POOL_AUTHORITY_LIST_ID] = Some [-1113600; 0; 1113600] /\
  cost S4 PAYER ADMIN (CRemoveDisableAuth None USER) [PAYER; ADMIN; DISABLE_POOL_AUTHORITY_LIST_ID] = Some [1113600; 0; -1113600] /\
  cost S4 PAYER ADMIN (CRemoveDisableAuth (Some BF) USER) [PAYER; BF; DISABLE_POOL_AUTHORITY_LIST_ID] = Some [0; 1113600; -1113600] /\
  cost S9 PAYER ADMIN (CWithdrawFees MA SPL_TOKEN_ID None (Some 0)) [PAYER; ADMIN; addr ADMIN SPL_TOKEN_ID MA] = Some [-2039280; 0; 2039280] /\
  cost S9 PAYER ADMIN (CSetProtocolFee (Some 7) None) [PAYER; ADMIN] = Some [0; 0].
Proof. vm_compute. repeat split; reflexivity. Qed.

(** The managers' tools. *)
Definition flat_cost (pw : PWorld) (lam : Lam) (payer mgr : key) (c : FlatCmd) (ks : list key) : option (list Z) :=
  match flat_commandL rents0 ref_ratio_lib flat_cfg (pw, lam) payer mgr c with
  | Ok s' => Some (map (fun k => snd s' k - lam k) ks) | Err _ => None end.
Definition rich : Lam := fun k => if k =? 600 then 10000000 else 0.
Definition fee_801 : key := fst (fd_find flat_cfg 801).
Definition with_fees : Lam := upd rich fee_801 932640.
Example C55_flat_case :
  flat_cost fpw0 rich 600 600 FInit [600; ff_state flat_cfg] = Some [-1127520; 1127520] /\
  flat_cost fpw3 with_fees 600 (ff_manager0 flat_cfg) (FRemoveLst 801 9) [600; 9; fee_801] = Some [0; 932640; -932640] /\
  flat_cost fpw3 with_fees 600 (ff_manager0 flat_cfg) (FRemoveLst 801 fee_801) [600] = None.
Proof. vm_compute. repeat split; reflexivity. Qed.
Example C55_calc_case :
  match calc_commandL rents0 ref_ratio_lib PropCalc.spl_cfg (fun _ => 511) (PropCalc.pw_before, rich) 600 600 CCInit with
  | Ok s' => Some (snd s' 600, snd s' (cc_state PropCalc.spl_cfg)) | Err _ => None end = Some (8830720, 1169280).
Proof. vm_compute. reflexivity. Qed.
