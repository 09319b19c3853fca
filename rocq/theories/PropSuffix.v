(** C28, second half: the external programs consulted by a call are exactly those of the account groups. *)
From Coq Require Import ZArith List Bool Lia.
From Verif Require Import Base Ratio Calc State Controller Inversion ProcInv Spec CalcProofs InvProofs
  TokProofs AccessProofs ShapeProofs MoneyProofs Concrete ConcreteReach PropAccess.
Import ListNotations.
Open Scope Z_scope.

(** The account groups of the external programs of a call: program first, then its accounts. *)
Definition external_groups (accs : list Meta) (ix : Ix) : list (list Meta) :=
  match ix with
  | SyncSolValue _ => [skipn 4 accs]
  | SwapExactIn a =>
      let n := si_src_lst_value_calc_accs a in let m := si_dst_lst_value_calc_accs a in
      [group accs 12 n; group accs (12 + Z.to_nat n) m; skipn (12 + Z.to_nat n + Z.to_nat m) accs]
  | SwapExactOut a =>
      let n := so_src_lst_value_calc_accs a in let m := so_dst_lst_value_calc_accs a in
      [group accs 12 n; group accs (12 + Z.to_nat n) m; skipn (12 + Z.to_nat n + Z.to_nat m) accs]
  | AddLiquidity a =>
      let n := al_lst_value_calc_accs a in [group accs 11 n; skipn (11 + Z.to_nat n) accs]
  | RemoveLiquidity a =>
      let n := rl_lst_value_calc_accs a in [group accs 11 n; skipn (11 + Z.to_nat n) accs]
  | SetSolValueCalculator _ => [skipn 5 accs]
  | StartRebalance a =>
      let n := sr_src_lst_calc_accs a in [group accs 12 n; skipn (12 + Z.to_nat n) accs]
  | EndRebalance => [skipn 6 accs]
  | _ => []
  end.

(** Two environments answer alike when the program of group [g] is called with exactly the group's
    accounts. *)
Definition answer_alike (E E' : Env) (g : list Meta) : Prop :=
  let p := group_prog g in let a := group_accs g in
  (forall w m x, e_lst_to_sol E w p m a x = e_lst_to_sol E' w p m a x) /\
  (forall w m x, e_sol_to_lst E w p m a x = e_sol_to_lst E' w p m a x) /\
  (forall w s d x y, e_price_exact_in E w p s d a x y = e_price_exact_in E' w p s d a x y) /\
  (forall w s d x y, e_price_exact_out E w p s d a x y = e_price_exact_out E' w p s d a x y) /\
  (forall w m x y, e_price_lp_to_mint E w p m a x y = e_price_lp_to_mint E' w p m a x y) /\
  (forall w m x y, e_price_lp_to_redeem E w p m a x y = e_price_lp_to_redeem E' w p m a x y).

Lemma bind_ext {A B} (m m' : res A) (f f' : A -> res B) :
  m = m' -> (forall a, m = Ok a -> f a = f' a) -> bind m f = bind m' f'.
Proof. intros <- H. destruct m; cbn; auto. Qed.
Lemma guard_ext {A} b e (k k' : res A) : (b = true -> k = k') -> guard b e k = guard b e k'.
Proof. destruct b; cbn; auto. Qed.

Definition cpi_alike E E' (c : Cpi) := answer_alike E E' (cpi_prog c :: cpi_accs c).

Section Alike.
Variables (E E' : Env) (c : Cpi).
Hypothesis H : cpi_alike E E' c.
Lemma alike_lst_to_sol w m x : invoke_lst_to_sol E w c m x = invoke_lst_to_sol E' w c m x.
Proof. unfold invoke_lst_to_sol. now rewrite (proj1 H). Qed.
Lemma alike_sol_to_lst w m x : invoke_sol_to_lst E w c m x = invoke_sol_to_lst E' w c m x.
Proof. unfold invoke_sol_to_lst. now rewrite (proj1 (proj2 H)). Qed.
Lemma alike_exact_in w s d x y : invoke_price_exact_in E w c s d x y = invoke_price_exact_in E' w c s d x y.
Proof. unfold invoke_price_exact_in. now rewrite (proj1 (proj2 (proj2 H))). Qed.
Lemma alike_exact_out w s d x y : invoke_price_exact_out E w c s d x y = invoke_price_exact_out E' w c s d x y.
Proof. unfold invoke_price_exact_out. now rewrite (proj1 (proj2 (proj2 (proj2 H)))). Qed.
Lemma alike_mint w m x y : invoke_price_lp_to_mint E w c m x y = invoke_price_lp_to_mint E' w c m x y.
Proof. unfold invoke_price_lp_to_mint. now rewrite (proj1 (proj2 (proj2 (proj2 (proj2 H))))). Qed.
Lemma alike_redeem w m x y : invoke_price_lp_to_redeem E w c m x y = invoke_price_lp_to_redeem E' w c m x y.
Proof. unfold invoke_price_lp_to_redeem. now rewrite (proj2 (proj2 (proj2 (proj2 (proj2 H))))). Qed.
Lemma alike_sync w P L R m i :
  sync_sol_value_unchecked E w P L R c m i = sync_sol_value_unchecked E' w P L R c m i.
Proof. unfold sync_sol_value_unchecked. apply bind_ext; auto. intros b _. now rewrite alike_lst_to_sol. Qed.
End Alike.

Ltac al := match goal with
  | |- invoke_lst_to_sol _ _ _ _ _ = _ => apply alike_lst_to_sol; assumption
  | |- invoke_sol_to_lst _ _ _ _ _ = _ => apply alike_sol_to_lst; assumption
  | |- invoke_price_exact_in _ _ _ _ _ _ _ = _ => apply alike_exact_in; assumption
  | |- invoke_price_exact_out _ _ _ _ _ _ _ = _ => apply alike_exact_out; assumption
  | |- invoke_price_lp_to_mint _ _ _ _ _ _ = _ => apply alike_mint; assumption
  | |- invoke_price_lp_to_redeem _ _ _ _ _ _ = _ => apply alike_redeem; assumption
  | |- sync_sol_value_unchecked _ _ _ _ _ _ _ _ = _ => apply alike_sync; assumption
  | |- sync_src _ _ _ _ _ = _ => unfold sync_src
  | |- sync_dst _ _ _ _ _ = _ => unfold sync_dst
  | |- sync_liq _ _ _ _ _ = _ => unfold sync_liq
  | |- swap_settle _ _ _ _ _ _ _ _ _ _ _ = _ => unfold swap_settle
  | |- ?x = ?x => reflexivity
  | |- bind _ _ = bind _ _ => apply bind_ext; [|intros]
  | |- guard _ _ _ = guard _ _ _ => apply guard_ext; intros
  | |- match ?x with _ => _ end = _ => destruct x
  end.

Section WithDerive.
Variable D : Derive.
Variables (E E' : Env).

Lemma alike_swap_in w accs a : ix_wfb (SwapExactIn a) = true ->
  Forall (answer_alike E E') (external_groups accs (SwapExactIn a)) ->
  process_swap_exact_in D E w accs a = process_swap_exact_in D E' w accs a.
Proof.
  intros Hwf F. wf Hwf. unfold process_swap_exact_in. apply guard_ext; intros _.
  apply bind_ext; [reflexivity|]. intros (A & (cs & cd) & cp) HV.
  apply verify_swap_inv in HV as (ps & l & l1 & l2 & HF); [|lia|lia].
  apply swap_groups in HF as (G1 & G2 & G3). cbn [external_groups] in F. rewrite G1, G2, G3 in F.
  inversion F as [|? ? A1 F1]; subst. inversion F1 as [|? ? A2 F2]; subst. inversion F2 as [|? ? A3 _]; subst.
  fold (cpi_alike E E' cs) in A1. fold (cpi_alike E E' cd) in A2. fold (cpi_alike E E' cp) in A3.
  repeat al.
Qed.
Lemma alike_swap_out w accs a : ix_wfb (SwapExactOut a) = true ->
  Forall (answer_alike E E') (external_groups accs (SwapExactOut a)) ->
  process_swap_exact_out D E w accs a = process_swap_exact_out D E' w accs a.
Proof.
  intros Hwf F. wf Hwf. unfold process_swap_exact_out. apply guard_ext; intros _.
  apply bind_ext; [reflexivity|]. intros (A & (cs & cd) & cp) HV.
  apply verify_swap_inv in HV as (ps & l & l1 & l2 & HF); [|lia|lia].
  apply swap_groups in HF as (G1 & G2 & G3). cbn [external_groups] in F. rewrite G1, G2, G3 in F.
  inversion F as [|? ? A1 F1]; subst. inversion F1 as [|? ? A2 F2]; subst. inversion F2 as [|? ? A3 _]; subst.
  fold (cpi_alike E E' cs) in A1. fold (cpi_alike E E' cd) in A2. fold (cpi_alike E E' cp) in A3.
  repeat al.
Qed.
Lemma alike_add w accs a :
  Forall (answer_alike E E') (external_groups accs (AddLiquidity a)) ->
  process_add_liquidity D E w accs a = process_add_liquidity D E' w accs a.
Proof.
  intros F. unfold process_add_liquidity. apply guard_ext; intros _.
  apply bind_ext; [reflexivity|]. intros (A & c & cp) HV.
  apply verify_liquidity_inv in HV as (ps & l & ls & HF).
  apply liq_groups in HF as (G1 & G2). cbn [external_groups] in F. rewrite G1, G2 in F.
  inversion F as [|? ? A1 F1]; subst. inversion F1 as [|? ? A2 _]; subst.
  fold (cpi_alike E E' c) in A1. fold (cpi_alike E E' cp) in A2. repeat al.
Qed.
Lemma alike_remove w accs a :
  Forall (answer_alike E E') (external_groups accs (RemoveLiquidity a)) ->
  process_remove_liquidity D E w accs a = process_remove_liquidity D E' w accs a.
Proof.
  intros F. unfold process_remove_liquidity. apply guard_ext; intros _.
  apply bind_ext; [reflexivity|]. intros (A & c & cp) HV.
  apply verify_liquidity_inv in HV as (ps & l & ls & HF).
  apply liq_groups in HF as (G1 & G2). cbn [external_groups] in F. rewrite G1, G2 in F.
  inversion F as [|? ? A1 F1]; subst. inversion F1 as [|? ? A2 _]; subst.
  fold (cpi_alike E E' c) in A1. fold (cpi_alike E E' cp) in A2. repeat al.
Qed.
Lemma alike_sync_proc w accs i :
  Forall (answer_alike E E') (external_groups accs (SyncSolValue i)) ->
  process_sync_sol_value D E w accs i = process_sync_sol_value D E' w accs i.
Proof.
  intros F. unfold process_sync_sol_value. do 4 (destruct accs as [|? accs]; [reflexivity|]).
  inversion F as [|? ? A1 _]; subst. cbn [skipn] in A1. unfold verify_keys_privs.
  repeat match goal with
  | H : verify_lst_sol_val_calc_cpi _ _ _ _ = Ok ?c |- _ =>
      apply verify_lst_cpi_ok in H; destruct H as (? & ? & -> & _); fold (cpi_alike E E' c) in A1
  | _ => al
  end.
Qed.
Lemma alike_end w accs :
  Forall (answer_alike E E') (external_groups accs EndRebalance) ->
  process_end_rebalance D E w accs = process_end_rebalance D E' w accs.
Proof.
  intros F. unfold process_end_rebalance. do 6 (destruct accs as [|? accs]; [reflexivity|]).
  inversion F as [|? ? A1 _]; subst. cbn [skipn] in A1. unfold verify_keys_privs.
  repeat match goal with
  | H : verify_lst_sol_val_calc_cpi _ _ _ _ = Ok ?c |- _ =>
      apply verify_lst_cpi_ok in H; destruct H as (? & ? & -> & _); fold (cpi_alike E E' c) in A1
  | _ => al
  end.
Qed.
Lemma alike_set_calc w accs i :
  Forall (answer_alike E E') (external_groups accs (SetSolValueCalculator i)) ->
  process_set_sol_value_calculator D E w accs i = process_set_sol_value_calculator D E' w accs i.
Proof.
  intros F. unfold process_set_sol_value_calculator. do 5 (destruct accs as [|? accs]; [reflexivity|]).
  inversion F as [|? ? A1 _]; subst. cbn [skipn] in A1. unfold verify_keys_privs.
  repeat match goal with
  | H : cpi_from_suffix ?s = Ok ?c |- _ =>
      destruct s as [|? ?]; [discriminate H|]; cbn in H; injection H as <-;
      match type of A1 with answer_alike _ _ (?p :: ?r) => fold (cpi_alike E E' (mkCpi p r)) in A1 end
  | _ => al
  end.
Qed.
Lemma alike_start C w accs a :
  Forall (answer_alike E E') (external_groups accs (StartRebalance a)) ->
  process_start_rebalance D E C w accs a = process_start_rebalance D E' C w accs a.
Proof.
  intros F. unfold process_start_rebalance. do 12 (destruct accs as [|? accs]; [reflexivity|]).
  inversion F as [|? ? A1 F1]; subst. inversion F1 as [|? ? A2 _]; subst.
  unfold verify_keys_privs.
  repeat match goal with
  | H : verify_src_dst_lst_sol_val_calc_cpis _ _ _ _ _ _ = Ok (?cs, ?cd) |- _ =>
      apply verify_src_dst_ok in H; destruct H as (? & ? & ? & Hs & Hn & _);
      unfold group in A1; cbn [skipn plus] in A1, A2; rewrite Hs, <- Hn in A1, A2;
      rewrite firstn_app, firstn_all, Nat.sub_diag, firstn_O, app_nil_r in A1;
      rewrite skipn_app, skipn_all, Nat.sub_diag in A2; cbn [skipn app] in A2;
      fold (cpi_alike E E' cs) in A1; fold (cpi_alike E E' cd) in A2
  | _ => al
  end.
Qed.
End WithDerive.

(** The outcome of a call depends on the external programs only through what the programs heading its
    account groups answer when given exactly the accounts of their group: no other program is
    consulted, and no account is shown to a program outside its own group. *)
Theorem C28_only_the_groups D E E' C w accs ix :
  Forall (answer_alike E E') (external_groups accs ix) ->
  process D E C w accs ix = process D E' C w accs ix.
Proof.
  intros F. unfold process. apply guard_ext. intros Hwf.
  destruct ix; try reflexivity;
    [ now apply alike_sync_proc | now apply alike_swap_in | now apply alike_swap_out | now apply alike_add
    | now apply alike_remove | now apply alike_set_calc | now apply alike_start | now apply alike_end ].
Qed.

(* an environment that refuses everybody except the three programs of the example swap, called with no
   accounts, still gives the same swap *)
Definition only_swap_progs (E : Env) : Env :=
  let ok (p : key) (a : list Meta) := ((p =? CA) || (p =? CB) || (p =? PP)) && (match a with [] => true | _ => false end) in
  {| e_lst_to_sol := fun w p m a x => if ok p a then e_lst_to_sol E w p m a x else Err ExternalErr;
     e_sol_to_lst := fun w p m a x => if ok p a then e_sol_to_lst E w p m a x else Err ExternalErr;
     e_price_exact_in := fun w p s d a x y => if ok p a then e_price_exact_in E w p s d a x y else Err ExternalErr;
     e_price_exact_out := fun w p s d a x y => if ok p a then e_price_exact_out E w p s d a x y else Err ExternalErr;
     e_price_lp_to_mint := fun w p m a x y => if ok p a then e_price_lp_to_mint E w p m a x y else Err ExternalErr;
     e_price_lp_to_redeem := fun w p m a x y => if ok p a then e_price_lp_to_redeem E w p m a x y else Err ExternalErr |}.
Example C28_groups_case :
  process D0 (only_swap_progs E0) C0 W5 swap_accs (SwapExactIn swap_in_args) = Ok W6.
Proof.
  rewrite (C28_only_the_groups D0 (only_swap_progs E0) E0).
  - apply okb_get. vm_compute. reflexivity.
  - repeat constructor.
Qed.
