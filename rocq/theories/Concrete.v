(** A concrete address derivation and a concrete world, calculators and pricing program, used to show
    that the theorems' hypotheses are met by real runs. *)
From Coq Require Import ZArith List Bool Lia.
From Verif Require Import Base Ratio Calc State Controller Spec.
Import ListNotations.
Open Scope Z_scope.

(* ------------------------------------------------------------------ *)
(** * Address derivation: an injective, prefix-free encoding into negative keys *)
Fixpoint pbits (p : positive) : list bool :=
  match p with
  | xH => [false]
  | xO p => true :: false :: pbits p
  | xI p => true :: true :: pbits p
  end.
Definition zbits (z : Z) : list bool :=
  match z with
  | Z0 => [false]
  | Zpos p => true :: false :: pbits p
  | Zneg p => true :: true :: pbits p
  end.
Fixpoint bits_pos (l : list bool) : positive :=
  match l with [] => xH | true :: t => xI (bits_pos t) | false :: t => xO (bits_pos t) end.

Lemma pbits_inj p q r s : pbits p ++ r = pbits q ++ s -> p = q /\ r = s.
Proof.
  revert q r s. induction p; destruct q; cbn; intros r s H; try discriminate; injection H as H.
  - apply IHp in H. intuition congruence.
  - apply IHp in H. intuition congruence.
  - auto.
Qed.
Lemma zbits_inj a b r s : zbits a ++ r = zbits b ++ s -> a = b /\ r = s.
Proof.
  destruct a, b; cbn; intros H; try discriminate; injection H as H; auto;
    apply pbits_inj in H; intuition congruence.
Qed.
Lemma bits_pos_inj l m : bits_pos l = bits_pos m -> l = m.
Proof.
  revert m. induction l as [|x l IH]; destruct m as [|y m]; cbn; try destruct x; try destruct y;
    intros H; try discriminate; auto; injection H as H; f_equal; auto.
Qed.

Definition addr (wallet prog mint : key) : key :=
  Zneg (bits_pos (zbits wallet ++ zbits prog ++ zbits mint ++ [])).

Definition D0 : Derive :=
  {| d_create := fun w p m b => if b =? 255 then Some (addr w p m) else None;
     d_find := fun w p m => (addr w p m, 255) |}.

Lemma D0_ok : derive_ok D0.
Proof.
  unfold derive_ok. cbn. split; [auto|]. split; [|split].
  - intros w p m b w' p' m' b' k. destruct (b =? 255), (b' =? 255); try discriminate.
    intros [= <-] [= H]. apply bits_pos_inj in H.
    apply zbits_inj in H as (-> & H). apply zbits_inj in H as (-> & H). apply zbits_inj in H as (-> & _).
    auto.
  - intros w p m b k. destruct (b =? 255); intros [= <-] [? ?]. unfold addr in *. lia.
  - intros w p m. unfold U8_MAX. lia.
Qed.

(* ------------------------------------------------------------------ *)
(** * Accounts and programs of the example *)
Definition ADMIN : key := INITIAL_AUTHORITY_ID.
Definition PAYER : key := 20.
Definition USER : key := 21.
Definition REBALANCER : key := INITIAL_AUTHORITY_ID.
Definition LP : key := 30.      (* LP token mint *)
Definition MA : key := 31.      (* an LST worth 1 SOL, SPL Token *)
Definition MB : key := 32.      (* an LST worth 2 SOL, Token-2022 *)
Definition CA : key := 40.      (* their calculators *)
Definition CB : key := 41.
Definition PP : key := DEFAULT_PRICING_PROGRAM.
Definition UA : key := 51.      (* user's token accounts *)
Definition UB : key := 52.
Definition UL : key := 53.
Definition BF : key := 54.      (* the fee beneficiary's account for MB *)
Definition RA : key := addr POOL_STATE_ID SPL_TOKEN_ID MA.      (* reserves *)
Definition RB : key := addr POOL_STATE_ID SPL_TOKEN_2022_ID MB.
Definition FA : key := addr PROTOCOL_FEE_ID SPL_TOKEN_ID MA.    (* fee accumulators *)
Definition FB : key := addr PROTOCOL_FEE_ID SPL_TOKEN_2022_ID MB.

Definition ro (k : key) : Meta := mkMeta k false false.
Definition rw (k : key) : Meta := mkMeta k false true.
Definition sg (k : key) : Meta := mkMeta k true false.
Definition sw (k : key) : Meta := mkMeta k true true.

(** Calculators and pricing: 1:1 and 2:1 rates, a 1% fee everywhere; anything else fails. *)
Definition E0 : Env := {|
  e_lst_to_sol := fun _ c _ _ x =>
    if c =? CA then Ok (x, x) else if c =? CB then Ok (2 * x, 2 * x) else Err ExternalErr;
  e_sol_to_lst := fun _ c _ _ s =>
    if c =? CA then Ok (s, s) else if c =? CB then Ok (s / 2, (s + 1) / 2) else Err ExternalErr;
  e_price_exact_in := fun _ p _ _ _ _ s => if p =? PP then Ok (s * 99 / 100) else Err ExternalErr;
  e_price_exact_out := fun _ p _ _ _ _ s => if p =? PP then Ok (s * 100 / 99 + 1) else Err ExternalErr;
  e_price_lp_to_mint := fun _ p _ _ _ s => if p =? PP then Ok (s * 99 / 100) else Err ExternalErr;
  e_price_lp_to_redeem := fun _ p _ _ _ s => if p =? PP then Ok (s * 99 / 100) else Err ExternalErr
|}.
Definition C0 : Ctx := mkCtx [] 0.

Definition at_key {A} (k : key) (v : A) (f : key -> A) : key -> A := upd f k v.

(** Before Initialize: an LP mint, two LST mints and the user's token accounts. *)
Definition W0 : World := {|
  w_pool := fun _ => None;
  w_list := fun _ => Some [];
  w_auth := fun _ => Some [];
  w_rec := fun _ => None;
  w_tok := at_key UA (Some (mkTok MA USER 10000000))
          (at_key UB (Some (mkTok MB USER 10000000))
          (at_key UL (Some (mkTok LP USER 0))
          (at_key BF (Some (mkTok MB ADMIN 0)) (fun _ => None))));
  w_mint := at_key LP (Some (mkMint 0 9 (Some ADMIN) (Some ADMIN)))
           (at_key MA (Some (mkMint 10000000 9 None None))
           (at_key MB (Some (mkMint 10000000 9 None None)) (fun _ => None)));
  w_owner := fun k => if (k =? MB) || (k =? UB) || (k =? BF) then SPL_TOKEN_2022_ID
                      else if (k =? LP) || (k =? MA) || (k =? UA) || (k =? UL) then SPL_TOKEN_ID
                      else SYSTEM_PROGRAM_ID;
  w_exec := fun k => (k =? CA) || (k =? CB) || (k =? PP)
|}.

Lemma W0_genesis : genesis D0 W0.
Proof.
  split; [reflexivity|]. split; [reflexivity|]. split; [reflexivity|]. split; [reflexivity|].
  split.
  2:{ intros wallet prog mint bump k _ H. cbn in H. destruct (bump =? 255); [|discriminate].
      injection H as <-. cbn. unfold at_key, upd. split; [reflexivity|]. intros t [=]. }
  split; cbn; unfold at_key, upd; intros k x H;
  repeat match type of H with
         | (if ?b then _ else _) = Some _ => destruct b;
             [injection H as <-; cbn; unfold U64, U64_MAX; lia|] end; discriminate.
Qed.

Definition get (r : res World) : World := match r with Ok w => w | Err _ => W0 end.
Definition okb {A} (r : res A) : bool := match r with Ok _ => true | Err _ => false end.
Lemma okb_get r : okb r = true -> r = Ok (get r).
Proof. destruct r; [reflexivity|discriminate]. Qed.

(** The example history. *)
Definition init_accs := [sw PAYER; sg ADMIN; rw POOL_STATE_ID; rw LP; ro SPL_TOKEN_ID; ro SYSTEM_PROGRAM_ID].
Definition add_accs (m r f c p : key) :=
  [sg ADMIN; sw PAYER; ro m; rw r; rw f; rw PROTOCOL_FEE_ID; ro c; ro POOL_STATE_ID;
   rw LST_STATE_LIST_ID; ro ATA_PROGRAM_ID; ro SYSTEM_PROGRAM_ID; ro p].
Definition liq_accs (m u f p r c : key) :=
  [sg USER; ro m; rw u; rw UL; rw LP; rw f; ro p; ro SPL_TOKEN_ID; rw POOL_STATE_ID;
   rw LST_STATE_LIST_ID; rw r; ro c; ro PP].
Definition swap_accs :=
  [sg USER; ro MA; ro MB; rw UA; rw UB; rw FB; ro SPL_TOKEN_ID; ro SPL_TOKEN_2022_ID;
   rw POOL_STATE_ID; rw LST_STATE_LIST_ID; rw RA; rw RB; ro CA; ro CB; ro PP].
Definition start_accs :=
  [sg REBALANCER; rw POOL_STATE_ID; rw LST_STATE_LIST_ID; rw REBALANCE_RECORD_ID; ro MA; ro MB;
   rw RA; rw RB; rw UA; ro INSTRUCTIONS_SYSVAR_ID; ro SYSTEM_PROGRAM_ID; ro SPL_TOKEN_ID; ro CA; ro CB].
Definition end_accs :=
  [sg REBALANCER; rw POOL_STATE_ID; rw LST_STATE_LIST_ID; rw REBALANCE_RECORD_ID; ro MB; rw RB; ro CB].
Definition sync_accs := [ro MB; rw POOL_STATE_ID; rw LST_STATE_LIST_ID; ro RB; ro CB].
Definition end_ix : TopIx := mkTop S_CONTROLLER_ID end_accs [20].
Definition start_ix : TopIx := mkTop S_CONTROLLER_ID start_accs [19].
Definition reb_ctx (i : nat) : Ctx := mkCtx [start_ix; end_ix] i.

Definition R1 := process D0 E0 C0 W0 init_accs Initialize.
Definition W1 := get R1.
Definition R2 := process D0 E0 C0 W1 (add_accs MA RA FA CA SPL_TOKEN_ID) AddLst.
Definition W2 := get R2.
Definition R3 := process D0 E0 C0 W2 (add_accs MB RB FB CB SPL_TOKEN_2022_ID) AddLst.
Definition W3 := get R3.
Definition add_args_a := mkAddLiq 1 0 1000000 1.
Definition R4 := process D0 E0 C0 W3 (liq_accs MA UA FA SPL_TOKEN_ID RA CA) (AddLiquidity add_args_a).
Definition W4 := get R4.
Definition add_args_b := mkAddLiq 1 1 500000 1.
Definition R5 := process D0 E0 C0 W4 (liq_accs MB UB FB SPL_TOKEN_2022_ID RB CB) (AddLiquidity add_args_b).
Definition W5 := get R5.
Definition swap_in_args := mkSwapIn 1 1 0 1 4000 10001.
Definition R6 := process D0 E0 C0 W5 swap_accs (SwapExactIn swap_in_args).
Definition W6 := get R6.
Definition swap_out_args := mkSwapOut 1 1 0 1 9000 3001.
Definition R7 := process D0 E0 C0 W6 swap_accs (SwapExactOut swap_out_args).
Definition W7 := get R7.
Definition rem_args := mkRemLiq 1 1 100000 1.
Definition R8 := process D0 E0 C0 W7 (liq_accs MB UB FB SPL_TOKEN_2022_ID RB CB) (RemoveLiquidity rem_args).
Definition W8 := get R8.
Definition start_args := mkStartReb 1 0 1 10000 0 U64_MAX.
Definition R9 := process D0 E0 (reb_ctx 0) W8 start_accs (StartRebalance start_args).
Definition W9 := get R9.
(** Somebody deposits 5000 MB into the reserves. *)
Definition R10 := transfer_checked W9 SPL_TOKEN_2022_ID UB RB MB USER true 5000.
Definition W10 := get R10.
Definition R11 := process D0 E0 (reb_ctx 1) W10 end_accs EndRebalance.
Definition W11 := get R11.
Definition add_auth_accs := [sw PAYER; sg ADMIN; ro POOL_STATE_ID; ro USER; rw DISABLE_POOL_AUTHORITY_LIST_ID; ro SYSTEM_PROGRAM_ID].
Definition R12 := process D0 E0 C0 W11 add_auth_accs AddDisablePoolAuthority.
Definition W12 := get R12.
Definition disable_accs := [sg USER; rw POOL_STATE_ID; ro DISABLE_POOL_AUTHORITY_LIST_ID].
Definition R13 := process D0 E0 C0 W12 disable_accs DisablePool.
Definition W13 := get R13.
Definition enable_accs := [sg ADMIN; rw POOL_STATE_ID].
Definition R14 := process D0 E0 C0 W13 enable_accs EnablePool.
Definition W14 := get R14.
Definition withdraw_accs := [sg ADMIN; rw BF; rw FB; rw PROTOCOL_FEE_ID; ro SPL_TOKEN_2022_ID; rw POOL_STATE_ID; ro MB].
Definition R15 := process D0 E0 C0 W14 withdraw_accs (WithdrawProtocolFees 5).
Definition W15 := get R15.
Definition lst_input_accs := [sg ADMIN; ro MB; rw POOL_STATE_ID; rw LST_STATE_LIST_ID].
Definition R16 := process D0 E0 C0 W15 lst_input_accs (DisableLstInput 1).
Definition W16 := get R16.

Lemma history_ok : forallb okb [R1;R2;R3;R4;R5;R6;R7;R8;R9;R11;R12;R13;R14;R15;R16] = true.
Proof. vm_compute. reflexivity. Qed.

(* ------------------------------------------------------------------ *)
(** * The worlds of the history are reachable *)
Definition pdas_do_not_signb (accs : list Meta) : bool :=
  forallb (fun a => negb (is_signer a && existsb (Z.eqb (mk a)) controller_pdas)) accs.
Lemma pdas_do_not_signb_ok accs : pdas_do_not_signb accs = true -> pdas_do_not_sign accs.
Proof.
  intros H a Ha Hs Hin. unfold pdas_do_not_signb in H. rewrite forallb_forall in H.
  specialize (H a Ha). rewrite Hs in H. cbn [andb] in H. apply negb_true_iff in H.
  assert (existsb (Z.eqb (mk a)) controller_pdas = true); [|congruence].
  apply existsb_exists. exists (mk a). split; auto. apply Z.eqb_refl.
Qed.

Lemma reach_ctl D E C w accs ix w' :
  reachable D w -> pdas_do_not_sign accs -> process D E C w accs ix = Ok w' -> reachable D w'.
Proof.
  intros (w0 & Hg & Hs) Hp H. exists w0. split; auto. eapply steps_cons; [exact Hs|].
  eapply step_controller; eauto.
Qed.
Lemma reach_ext D w w' : reachable D w -> external_step D w w' -> reachable D w'.
Proof.
  intros (w0 & Hg & Hs) H. exists w0. split; auto. eapply steps_cons; [exact Hs|].
  now apply step_external.
Qed.
Lemma reach_genesis D w : genesis D w -> reachable D w.
Proof. intros H. exists w. split; auto. constructor. Qed.

Lemma reach_get D E C w accs ix :
  reachable D w -> pdas_do_not_signb accs = true -> okb (process D E C w accs ix) = true ->
  reachable D (get (process D E C w accs ix)).
Proof.
  intros H Hp Hk. eapply reach_ctl; [exact H|apply pdas_do_not_signb_ok, Hp|apply okb_get, Hk].
Qed.
Ltac reach W R H := unfold W, R; apply reach_get; [exact H | vm_compute; reflexivity | vm_compute; reflexivity].
Lemma W0_reach : reachable D0 W0. Proof. apply reach_genesis, W0_genesis. Qed.
Lemma W1_reach : reachable D0 W1. Proof. reach W1 R1 W0_reach. Qed.
Lemma W2_reach : reachable D0 W2. Proof. reach W2 R2 W1_reach. Qed.
Lemma W3_reach : reachable D0 W3. Proof. reach W3 R3 W2_reach. Qed.
Lemma W4_reach : reachable D0 W4. Proof. reach W4 R4 W3_reach. Qed.
Lemma W5_reach : reachable D0 W5. Proof. reach W5 R5 W4_reach. Qed.
Lemma W6_reach : reachable D0 W6. Proof. reach W6 R6 W5_reach. Qed.
Lemma W7_reach : reachable D0 W7. Proof. reach W7 R7 W6_reach. Qed.
Lemma W8_reach : reachable D0 W8. Proof. reach W8 R8 W7_reach. Qed.
Lemma W9_reach : reachable D0 W9. Proof. reach W9 R9 W8_reach. Qed.
