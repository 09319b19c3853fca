(** C61: the price of a swap. *)
From Coq Require Import ZArith List Bool Lia.
From Verif Require Import Base Ratio State Controller Spec InvProofs AdminSpec TradeSpec PropTrade Periph Deploy Concrete ConcreteReach ImpactSpec.
Import ListNotations.
Open Scope Z_scope.

Lemma bal_put_tok w k t x : balance (put_tok w k (Some t)) x = if x =? k then ta_amount t else balance w x.
Proof.
  unfold balance, put_tok, upd. cbn [w_tok]. destruct (x =? k); reflexivity.
Qed.
Lemma paid_moves w m from to owner a w' : paid w m from to owner a w' ->
  w_mint w' = w_mint w /\ forall k, balance w' k = balance w k - on k from a + on k to a.
Proof.
  intros [f t Hne (Hf & _) (Ht & _) _ _ _|f -> _ _ _]; (split; [reflexivity|]); intros k.
  - rewrite !bal_put_tok. cbn [ta_amount]. unfold on. destruct (Z.eqb_spec k to) as [->|Hk].
    + destruct (Z.eqb_spec to from); [congruence|]. unfold balance. rewrite Ht. lia.
    + destruct (Z.eqb_spec k from) as [->|]; [unfold balance; rewrite Hf|]; lia.
  - lia.
Qed.
Lemma measured_moves D E w i more w' : measured D E w i more w' ->
  w_mint w' = w_mint w /\ (forall k, balance w' k = balance w k).
Proof. intros []. split; reflexivity. Qed.
Lemma settled_moves D E w0 i j src dst who from to ms md pay out fee w' :
  swap_settled D E w0 i j src dst who from to ms md pay out fee w' ->
  w_mint w' = w_mint w0 /\ forall k, balance w' k = balance w0 k
    - on k from pay + on k (reserves_key D w0 src) pay
    - on k (reserves_key D w0 dst) (out + fee) + on k to out + on k (accumulator_key D w0 dst) fee.
Proof.
  intros (w1 & w2 & w3 & w4 & _ & P1 & P2 & P3 & M1 & M2 & _).
  apply paid_moves in P1 as (Q1 & P1). apply paid_moves in P2 as (Q2 & P2). apply paid_moves in P3 as (Q3 & P3).
  apply measured_moves in M1 as (R1 & M1). apply measured_moves in M2 as (R2 & M2).
  split; [congruence|]. intros k. rewrite M2, M1, P3, P2, P1. unfold on.
  destruct (k =? reserves_key D w0 dst); lia.
Qed.
Lemma measured_owner D E w i more w' : measured D E w i more w' -> w_owner w' = w_owner w.
Proof. intros []. reflexivity. Qed.

Lemma app_same {A} (a b c d : list A) : length a = length c -> a ++ b = c ++ d -> a = c /\ b = d.
Proof.
  revert c. induction a as [|x a IH]; intros [|y c] Hl H; try discriminate Hl; [auto|].
  cbn in *. injection H as -> H. apply IH in H as (-> & ->); auto.
Qed.
Lemma meets_keys used asked : Forall2 meets used asked -> map mk used = map ask_key asked.
Proof. induction 1 as [|m a l l' (E & _)]; cbn [map]; congruence. Qed.
Lemma key_at_map accs n : key_at accs n = nth n (map mk accs) 0.
Proof.
  unfold key_at. revert accs. induction n as [|n IH]; intros [|m accs]; cbn; auto.
Qed.
(** The accounts named by a swap are the ones at its places. *)
Lemma swap_keys D w s d who from to accs more : passes accs (swap_asks D w s d who from to) more ->
  key_at accs 0 = who /\ key_at accs 1 = s /\ key_at accs 2 = d /\ key_at accs 3 = from /\ key_at accs 4 = to /\
  key_at accs 5 = accumulator_key D w d /\ key_at accs 10 = reserves_key D w s /\ key_at accs 11 = reserves_key D w d /\
  more = skipn 12 accs.
Proof.
  intros (used & -> & F). assert (Hl : length used = length (swap_asks D w s d who from to)) by (clear - F; induction F; cbn [length]; congruence). apply meets_keys in F. rewrite !key_at_map, map_app, F.
  cbn [swap_asks map ask_key reads writes signs app nth]. repeat (split; [reflexivity|]).
  cbn [swap_asks length] in Hl. change 12%nat with (0 + 12)%nat. rewrite <- Hl, skipn_app, skipn_all2, Nat.sub_diag by lia. reflexivity.
Qed.
Lemma calls_same g p q ms ns : calls g p ms -> calls g q ns -> p = q /\ ms = ns.
Proof. intros (m & -> & <-) (m' & Hg & <-). injection Hg as -> ->. auto. Qed.
Lemma groups_same more n m ps s d ms md mp ps' s' d' ms' md' mp' :
  swap_groups more n m ps s d ms md mp -> swap_groups more n m ps' s' d' ms' md' mp' ->
  sol_value_calculator s = sol_value_calculator s' /\ sol_value_calculator d = sol_value_calculator d' /\
  pricing_program ps = pricing_program ps' /\ ms = ms' /\ md = md' /\ mp = mp'.
Proof.
  intros (gs & gd & gp & -> & Ls & Ld & Cs & Cd & Cp) (gs' & gd' & gp' & Eq & Ls' & Ld' & Cs' & Cd' & Cp').
  apply app_same in Eq as (-> & Eq); [|lia]. apply app_same in Eq as (-> & ->); [|lia].
  destruct (calls_same _ _ _ _ _ Cs Cs') as (-> & ->). destruct (calls_same _ _ _ _ _ Cd Cd') as (-> & ->).
  destruct (calls_same _ _ _ _ _ Cp Cp') as (-> & ->). auto 6.
Qed.

(** A swap passing the accounts [accs]: what it moves, by the answers it gets. *)
Lemma settles_at D E w i ms w1 j md w2 i' j' s d who from to ms' md' pay out fee w' accs more :
  passes accs (swap_asks D w s d who from to) more -> measured D E w i ms w1 -> measured D E w1 j md w2 ->
  swap_settled D E w2 i' j' s d who from to ms' md' pay out fee w' -> settles w w' accs pay out fee.
Proof.
  intros P M1 M2 S. pose proof (measured_owner _ _ _ _ _ _ M1) as O1. pose proof (measured_owner _ _ _ _ _ _ M2) as O2.
  apply measured_moves in M1 as (N1 & M1). apply measured_moves in M2 as (N2 & M2). apply settled_moves in S as (NS & S).
  destruct (swap_keys _ _ _ _ _ _ _ _ _ P) as (_ & _ & _ & K3 & K4 & K5 & K10 & K11 & _).
  split; [congruence|]. intros k. rewrite S, M2, M1, K3, K4, K5, K10, K11.
  unfold reserves_key, accumulator_key. rewrite O2, O1. reflexivity.
Qed.

Section Impact.
Context (D : Derive) (HD : derive_ok D) (E : Env) (HE : stateless E).

(** The same swap (amount, direction and accounts), carried out in any two reachable states of the pool: the user gives
    and gets the same amounts. The fee, taken from the pool's side, is the pool's rate at the time applied to the same
    SOL values. *)
Theorem C61_same_price C1 C2 w1 w2 accs ix1 ix2 w1' w2' : reachable D w1 -> reachable D w2 -> same_swap ix1 ix2 ->
  process D E C1 w1 accs ix1 = Ok w1' -> process D E C2 w2 accs ix2 = Ok w2' ->
  exists pay out in_sol out_sol, as_asked ix1 pay out /\ 
    settles w1 w1' accs pay out (swap_fee (trading_bps w1) in_sol out_sol out) /\
    settles w2 w2' accs pay out (swap_fee (trading_bps w2) in_sol out_sol out).
Proof.
  intros R1 R2 HS P1 P2.
  assert (T1 : is_trade_ix ix1 = true) by (destruct ix1, ix2; try contradiction; reflexivity).
  assert (T2 : is_trade_ix ix2 = true) by (destruct ix1, ix2; try contradiction; reflexivity).
  destruct (C49_only_permitted D HD E C1 w1 R1 ix1 accs w1' T1 P1) as (asked1 & more1 & T1' & A1).
  destruct (C49_only_permitted D HD E C2 w2 R2 ix2 accs w2' T2 P2) as (asked2 & more2 & T2' & A2).
  clear P1 P2 T1 T2.
  destruct ix1; try contradiction; destruct ix2; try contradiction; destruct HS as (Hn & Hm & Ha); inversion T1'; subst; inversion T2'; subst;
    cbn [si_src_lst_value_calc_accs si_dst_lst_value_calc_accs si_amount so_src_lst_value_calc_accs so_dst_lst_value_calc_accs so_amount] in *; subst.
  - match goal with Q1 : swap_settled _ _ ?x1 _ _ _ _ _ _ _ _ _ _ _ _ w1', Q2 : swap_settled _ _ ?x2 _ _ _ _ _ _ _ _ _ _ _ _ w2' |- _ => destruct (HE x1 x2) as (E1 & E2 & E3 & E4 & _) end.
    destruct (swap_keys _ _ _ _ _ _ _ _ _ A1) as (_ & S1 & D1 & _ & _ & _ & _ & _ & M1).
    destruct (swap_keys _ _ _ _ _ _ _ _ _ A2) as (_ & S2 & D2 & _ & _ & _ & _ & _ & M2). rewrite M1, M2 in *.
    match goal with G1 : swap_groups _ _ _ ps _ _ _ _ _, G2 : swap_groups _ _ _ ps0 _ _ _ _ _ |- _ =>
      destruct (groups_same _ _ _ _ _ _ _ _ _ _ _ _ _ _ _ G1 G2) as (Q1 & Q2 & Q3 & <- & <- & <-) end.
    assert (Es : ls_mint s0 = ls_mint s) by congruence. assert (Ed : ls_mint d0 = ls_mint d) by congruence.
    rewrite <- Q1, <- Q2, <- Q3, Es, Ed in *.
    match goal with X : e_lst_to_sol E _ _ _ _ _ = Ok ?v, Y : e_lst_to_sol E _ _ _ _ _ = Ok ?u |- _ =>
      match v with u => fail 1 | _ => rewrite E1 in X; assert (F1 : v = u) by congruence; injection F1 as -> -> end end.
    match goal with X : e_price_exact_in E _ _ _ _ _ _ _ = Ok ?v, Y : e_price_exact_in E _ _ _ _ _ _ _ = Ok ?u |- _ =>
      match v with u => fail 1 | _ => rewrite E3 in X; assert (F2 : v = u) by congruence; rewrite F2 in * end end.
    match goal with X : e_sol_to_lst E _ _ _ _ _ = Ok ?v, Y : e_sol_to_lst E _ _ _ _ _ = Ok ?u |- _ =>
      match v with u => fail 1 | _ => rewrite E2 in X; assert (F3 : v = u) by congruence; injection F3 as -> -> end end.
    match goal with P1 : the_pool w1 = Some ps, P2 : the_pool w2 = Some ps0 |- _ => unfold trading_bps; rewrite P1, P2 end.
    do 4 eexists. split; [reflexivity|]. split; (eapply settles_at; [eassumption|eassumption|eassumption|]; rewrite ?Es, ?Ed; eassumption).
  - match goal with Q1 : swap_settled _ _ ?x1 _ _ _ _ _ _ _ _ _ _ _ _ w1', Q2 : swap_settled _ _ ?x2 _ _ _ _ _ _ _ _ _ _ _ _ w2' |- _ => destruct (HE x1 x2) as (E1 & E2 & E3 & E4 & _) end.
    destruct (swap_keys _ _ _ _ _ _ _ _ _ A1) as (_ & S1 & D1 & _ & _ & _ & _ & _ & M1).
    destruct (swap_keys _ _ _ _ _ _ _ _ _ A2) as (_ & S2 & D2 & _ & _ & _ & _ & _ & M2). rewrite M1, M2 in *.
    match goal with G1 : swap_groups _ _ _ ps _ _ _ _ _, G2 : swap_groups _ _ _ ps0 _ _ _ _ _ |- _ =>
      destruct (groups_same _ _ _ _ _ _ _ _ _ _ _ _ _ _ _ G1 G2) as (Q1 & Q2 & Q3 & <- & <- & <-) end.
    assert (Es : ls_mint s0 = ls_mint s) by congruence. assert (Ed : ls_mint d0 = ls_mint d) by congruence.
    rewrite <- Q1, <- Q2, <- Q3, Es, Ed in *.
    match goal with X : e_lst_to_sol E _ _ _ _ _ = Ok ?v, Y : e_lst_to_sol E _ _ _ _ _ = Ok ?u |- _ =>
      match v with u => fail 1 | _ => rewrite E1 in X; assert (F1 : v = u) by congruence; injection F1 as -> -> end end.
    match goal with X : e_price_exact_out E _ _ _ _ _ _ _ = Ok ?v, Y : e_price_exact_out E _ _ _ _ _ _ _ = Ok ?u |- _ =>
      match v with u => fail 1 | _ => rewrite E4 in X; assert (F2 : v = u) by congruence; rewrite F2 in * end end.
    match goal with X : e_sol_to_lst E _ _ _ _ _ = Ok ?v, Y : e_sol_to_lst E _ _ _ _ _ = Ok ?u |- _ =>
      match v with u => fail 1 | _ => rewrite E2 in X; assert (F3 : v = u) by congruence; injection F3 as -> -> end end.
    match goal with P1 : the_pool w1 = Some ps, P2 : the_pool w2 = Some ps0 |- _ => unfold trading_bps; rewrite P1, P2 end.
    do 4 eexists. split; [reflexivity|]. split; (eapply settles_at; [eassumption|eassumption|eassumption|]; rewrite ?Es, ?Ed; eassumption).
Qed.
End Impact.

Lemma later_reachable D w w' : reachable D w -> steps D w w' -> reachable D w'.
Proof. intros (w0 & G & S) H. exists w0. split; [exact G|]. induction H as [w|w1 w2 w3 H IH H2]; [exact S|]. eapply steps_cons; [apply IH; exact S|exact H2]. Qed.

(** No price impact, no sandwich: whatever anybody does between [w] and [w2] - trades, deposits, redemptions, rebalances,
    administration - the swap, if carried out after it, takes and pays exactly what it would have without it. *)
Corollary C61_unmoved D E C1 C2 w w1' w2 w2' accs ix1 ix2 : derive_ok D -> stateless E -> reachable D w ->
  steps D w w2 -> same_swap ix1 ix2 ->
  process D E C1 w accs ix1 = Ok w1' -> process D E C2 w2 accs ix2 = Ok w2' ->
  exists pay out fee1 fee2, as_asked ix1 pay out /\ settles w w1' accs pay out fee1 /\ settles w2 w2' accs pay out fee2 /\
    (trading_bps w = trading_bps w2 -> fee1 = fee2).
Proof.
  intros HD HE Hr Hw HS P1 P2.
  destruct (C61_same_price D HD E HE C1 C2 w w2 accs ix1 ix2 w1' w2' Hr (later_reachable _ _ _ Hr Hw) HS P1 P2)
    as (pay & out & x & y & A & S1 & S2). do 4 eexists. split; [exact A|]. split; [exact S1|]. split; [exact S2|]. now intros ->.
Qed.

(** The shipped calculators and pricing programs are such. *)
Theorem C61_shipped R dp pw other : stateless other -> stateless (deployed_env R dp pw other).
Proof.
  intros H w w'. destruct (H w w') as (H1 & H2 & H3 & H4 & H5 & H6). unfold deployed_env.
  cbn [e_lst_to_sol e_sol_to_lst e_price_exact_in e_price_exact_out e_price_lp_to_mint e_price_lp_to_redeem].
  repeat split; intros; [rewrite (H1 p m a x)|rewrite (H2 p m a x)|rewrite (H3 p i o a x s)|rewrite (H4 p i o a x s)|rewrite (H5 p m a x s)|rewrite (H6 p m a x s)]; reflexivity.
Qed.

(** The case: exchanging 100000 MA, when the pool has just been filled, after two swaps and a redemption, and after a
    rebalance: 49500 MB each time, and the protocol the same fee. *)
Definition exchange (w : World) : option (Z * Z * Z) :=
  match process D0 E0 C0 w swap_accs (SwapExactIn (mkSwapIn 1 1 0 1 40000 100000)) with
  | Ok w' => Some (balance w UA - balance w' UA, balance w' UB - balance w UB, balance w' FB - balance w FB)
  | Err _ => None end.
Example C61_case : exchange W5 = Some (100000, 49500, 50) /\ exchange W8 = Some (100000, 49500, 50) /\
  exchange W11 = Some (100000, 49500, 50) /\ exchange W15 = Some (100000, 49500, 50) /\ total W5 = 1998000 /\ total W8 = 1897688.
Proof. vm_compute. repeat split. Qed.
Example C61_case_stateless : stateless E0.
Proof. intros w w'. repeat split. Qed.
