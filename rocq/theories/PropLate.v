(** C57: instructions carried out later than they were built. *)
From Coq Require Import ZArith List Bool Lia.
From Verif Require Import Base Ratio Calc State Controller Inversion ProcInv Spec CalcProofs InvProofs TokProofs
  AccessProofs ShapeProofs MoneyProofs PropState PropAccess Serde Client ClientSpec ClientProofs PropClient AdminSpec PropAdmin
  PropMoney TradeSpec PropTrade CliAdmin CliAdminSpec PropCliAdmin LateSpec.
Import ListNotations.
Open Scope Z_scope.

Section Late.
Context (D : Derive).
Hypothesis HD : derive_ok D.
Context (E : Env) (C : Ctx) (V w : World).
Hypothesis HR : reachable D w.

Lemma now_found l i ls : the_list w = Some l -> 0 <= i -> nth_error l (Z.to_nat i) = Some ls ->
  try_find_lst_mint_on_list (ls_mint ls) l = Ok (i, ls) /\
  create_pool_reserves_address D ls (w_owner w (ls_mint ls)) = Ok (reserves_key D w (ls_mint ls)) /\
  create_protocol_fee_accumulator_address D ls (w_owner w (ls_mint ls)) = Ok (accumulator_key D w (ls_mint ls)).
Proof.
  intros Hl Hi Hn. split; [|].
  - destruct (nth_error_split _ _ Hn) as (b & a & -> & Hb).
    rewrite (found_listed D HD w HR _ _ _ Hl), Hb, Z2Nat.id by exact Hi. reflexivity.
  - pose proof (reachable_ata D HD w HR) as (_ & Hat & _). specialize (Hat l Hl). rewrite Forall_forall in Hat.
    destruct (Hat ls (nth_error_In _ _ Hn)) as (_ & _ & r & f & F1 & F2 & _). destruct HD as (Hfc & _).
    pose proof (Hfc POOL_STATE_ID (w_owner w (ls_mint ls)) (ls_mint ls)) as C1. rewrite F1 in C1.
    pose proof (Hfc PROTOCOL_FEE_ID (w_owner w (ls_mint ls)) (ls_mint ls)) as C2. rewrite F2 in C2. cbn [fst snd] in C1, C2.
    unfold create_pool_reserves_address, create_protocol_fee_accumulator_address, reserves_key, accumulator_key.
    rewrite C1, C2, F1, F2. split; reflexivity.
Qed.
Lemma now_found' b ls a : the_list w = Some (b ++ ls :: a) ->
  try_find_lst_mint_on_list (ls_mint ls) (b ++ ls :: a) = Ok (Z.of_nat (length b), ls) /\
  create_pool_reserves_address D ls (w_owner w (ls_mint ls)) = Ok (reserves_key D w (ls_mint ls)) /\
  create_protocol_fee_accumulator_address D ls (w_owner w (ls_mint ls)) = Ok (accumulator_key D w (ls_mint ls)).
Proof.
  intros Hl. apply now_found; [exact Hl|lia|]. rewrite Nat2Z.id, nth_error_app2, Nat.sub_diag by lia. reflexivity.
Qed.
Lemma was_trade metas ix w' : run D E C w (built metas ix) = Ok w' -> ix_wfb ix = true -> is_trade_ix ix = true ->
  exists asked more, trade_rule D E C w ix asked more w' /\ passes metas asked more.
Proof. intros H Hwf Ht. rewrite run_built in H by exact Hwf. eapply C49_only_permitted; eauto. Qed.
Lemma was_admin metas ix w' : run D E C w (built metas ix) = Ok w' -> ix_wfb ix = true -> is_admin_ix ix = true ->
  exists asked more ch, admin_rule D E w ix asked more ch /\ passes metas asked more.
Proof.
  intros H Hwf Ha. rewrite run_built in H by exact Hwf.
  destruct (C48_only_permitted D HD E C w HR ix metas w' Ha H) as (asked & more & ch & R & P & _). eauto.
Qed.
End Late.

Ltac passed P := let used := fresh "used" in let Eq := fresh "Eq" in let F := fresh "F" in
  destruct P as (used & Eq & F);
  repeat match goal with
  | H : Forall2 meets _ (_ :: _) |- _ => inversion H; clear H; subst
  | H : Forall2 meets _ [] |- _ => inversion H; clear H; subst
  end; keep; cbn [app] in Eq; injection Eq; clear Eq; intros; subst; cbn [mk ro wr sg sgw is_signer is_writable] in *; subst.

Section Now.
Context (D : Derive).
Hypothesis HD : derive_ok D.
Context (E : Env) (C : Ctx) (V w w' : World) (t : TopIx).
Hypothesis HR : reachable D w.

Lemma now_sync m ca : client_sync D V LST_STATE_LIST_ID m ca = Ok t -> run D E C w t = Ok w' ->
  client_sync D w LST_STATE_LIST_ID m ca = Ok t.
Proof.
  unfold client_sync. intros B H. apply bind_ok in B as (lv & Hlv & B). apply bind_ok in B as ((i & lsv) & Hf & B).
  apply bind_ok in B as (r & Hr & B). apply bind_ok in B as (i' & Hi & B). apply bind_ok in B as ((g & n) & Hg & B). injection B as <-.
  apply u32_is in Hi as (-> & Hu).
  destruct (was_trade D HD E C w HR _ _ _ H Hu eq_refl) as (asked & more & R & P).
  inversion R. subst asked more i0. clear R. unfold extend_with_calc in Hg. apply guard_ok in Hg as (Hlen & Hg). injection Hg as <- <-.
  passed P. destruct (now_found' D HD w HR _ _ _ H3) as (F1 & F2 & _).
  destruct H5 as (x & Ex & Ep). injection Ex as <- _. cbn [mk ro] in Ep.
  rewrite (list_at _ _ H3). cbn [bind]. rewrite F1. cbn [bind]. rewrite F2. cbn [bind]. unfold index_to_u32. rewrite Hu. cbn [guard bind].
  unfold extend_with_calc. rewrite Hlen. cbn [guard bind skipn app]. rewrite Ep. reflexivity.
Qed.

(** The two calculators' accounts of a built swap or rebalance. *)
Lemma group_len p xs n : 1 <= n -> n = len xs -> Z.of_nat (length (ro p :: skipn 1 xs)) = n.
Proof. unfold len. intros H ->. cbn [length]. rewrite skipn_length. lia. Qed.
Lemma app_split {A} (a b c d : list A) : length a = length c -> a ++ b = c ++ d -> a = c /\ b = d.
Proof.
  revert c. induction a as [|x a IH]; destruct c as [|y c]; cbn; intros Hl He; try discriminate; [auto|].
  injection He as -> He. injection Hl as Hl. destruct (IH c Hl He) as (-> & ->). auto.
Qed.
Lemma calls_some g p more : calls g p more -> 1 <= Z.of_nat (length g).
Proof. intros (x & -> & _). cbn [length]. lia. Qed.
Lemma calls_prog p xs q more : calls (ro p :: xs) q more -> p = q.
Proof. intros (x & Ex & Ep). injection Ex as <- _. exact Ep. Qed.
Lemma two_groups p xs q ys rest gs gd gp : 
  (ro p :: skipn 1 xs) ++ (ro q :: skipn 1 ys) ++ rest = gs ++ gd ++ gp ->
  Z.of_nat (length gs) = len xs -> Z.of_nat (length gd) = len ys -> 1 <= Z.of_nat (length gs) -> 1 <= Z.of_nat (length gd) ->
  gs = ro p :: skipn 1 xs /\ gd = ro q :: skipn 1 ys /\ gp = rest.
Proof.
  intros He H1 H2 L1 L2. apply app_split in He as (<- & He).
  - apply app_split in He as (<- & <-); [auto|]. pose proof (group_len q ys _ L2 H2). lia.
  - pose proof (group_len p xs _ L1 H1). lia.
Qed.
Lemma one_group p xs rest gs gp : (ro p :: skipn 1 xs) ++ rest = gs ++ gp ->
  Z.of_nat (length gs) = len xs -> 1 <= Z.of_nat (length gs) -> gs = ro p :: skipn 1 xs /\ gp = rest.
Proof.
  intros He H1 L1. apply app_split in He as (<- & <-); [auto|]. pose proof (group_len p xs _ L1 H1). lia.
Qed.

Lemma now_swap_keys s sa da sm dm keys i j p q : client_swap_keys D V s sa da sm dm LST_STATE_LIST_ID = Ok (keys, (i, j), (p, q)) ->
  exists asm adm r r' f, keys = [sg s; ro sm; ro dm; wr sa; wr da; wr f; ro asm; ro adm; wr POOL_STATE_ID; wr LST_STATE_LIST_ID; wr r; wr r'] /\
    0 <= i /\ 0 <= j /\ (exists pr m b, d_create D POOL_STATE_ID pr m b = Some r').
Proof.
  unfold client_swap_keys. intros B. apply bind_ok in B as (lv & Hlv & B). apply bind_ok in B as ((i1 & lsv) & Hf & B).
  apply bind_ok in B as (r & Hr & B). apply bind_ok in B as ((j1 & ldv) & Hf' & B). apply bind_ok in B as (r' & Hr' & B).
  apply bind_ok in B as (f & Hpf & B). injection B as <- <- <- _ _. do 5 eexists. split; [reflexivity|].
  apply find_lst_spec in Hf, Hf'. apply of_option_ok in Hr'. split; [lia|]. split; [lia|]. eauto.
Qed.
Lemma now_swap_keys_ok l i j ls ld s sa da : the_list w = Some l -> 0 <= i -> 0 <= j ->
  nth_error l (Z.to_nat i) = Some ls -> nth_error l (Z.to_nat j) = Some ld ->
  client_swap_keys D w s sa da (ls_mint ls) (ls_mint ld) LST_STATE_LIST_ID =
  Ok ([sg s; ro (ls_mint ls); ro (ls_mint ld); wr sa; wr da; wr (accumulator_key D w (ls_mint ld)); ro (w_owner w (ls_mint ls));
       ro (w_owner w (ls_mint ld)); wr POOL_STATE_ID; wr LST_STATE_LIST_ID; wr (reserves_key D w (ls_mint ls)); wr (reserves_key D w (ls_mint ld))],
      (i, j), (sol_value_calculator ls, sol_value_calculator ld)).
Proof.
  intros Hl Hi Hj Hn Hn'. destruct (now_found D HD w HR _ _ _ Hl Hi Hn) as (F1 & F2 & _).
  destruct (now_found D HD w HR _ _ _ Hl Hj Hn') as (G1 & G2 & G3). unfold client_swap_keys.
  rewrite (list_at _ _ Hl). cbn [bind]. rewrite F1. cbn [bind]. rewrite F2. cbn [bind]. rewrite G1. cbn [bind]. rewrite G2. cbn [bind].
  rewrite G3. reflexivity.
Qed.

Lemma u8_of xs : (len xs <=? U8_MAX) = true -> u8b (len xs) = true.
Proof. intros H. unfold u8b. rewrite H. unfold len. rewrite andb_true_iff, Z.leb_le. split; [lia|reflexivity]. Qed.

Lemma swap_passed s sm dm sa da f asm adm r r' p xs q xd gp sl dl who from to more ps ms md mp :
  passes ([sg s; ro sm; ro dm; wr sa; wr da; wr f; ro asm; ro adm; wr POOL_STATE_ID; wr LST_STATE_LIST_ID; wr r; wr r'] ++
          (ro p :: skipn 1 xs) ++ (ro q :: skipn 1 xd) ++ gp) (swap_asks D w (ls_mint sl) (ls_mint dl) who from to) more ->
  swap_groups more (len xs) (len xd) ps sl dl ms md mp ->
  (sm = ls_mint sl /\ dm = ls_mint dl /\ f = accumulator_key D w (ls_mint dl) /\ asm = w_owner w (ls_mint sl) /\
   adm = w_owner w (ls_mint dl) /\ r = reserves_key D w (ls_mint sl) /\ r' = reserves_key D w (ls_mint dl)) /\
  p = sol_value_calculator sl /\ q = sol_value_calculator dl.
Proof.
  intros P (g1 & g2 & g3 & Em & N1 & N2 & K1 & K2 & K3). unfold swap_asks in P.
  assert (more = (ro p :: skipn 1 xs) ++ (ro q :: skipn 1 xd) ++ gp /\ (sm = ls_mint sl /\ dm = ls_mint dl /\ f = accumulator_key D w (ls_mint dl) /\ asm = w_owner w (ls_mint sl) /\
   adm = w_owner w (ls_mint dl) /\ r = reserves_key D w (ls_mint sl) /\ r' = reserves_key D w (ls_mint dl))) as (Eq & Fs).
  { clear Em. revert P. generalize ((ro p :: skipn 1 xs) ++ (ro q :: skipn 1 xd) ++ gp). intros rest P. passed P. auto 10. }
  split; [exact Fs|]. rewrite Em in Eq. symmetry in Eq.
  apply two_groups in Eq as (-> & -> & ->); [|exact N1|exact N2|exact (calls_some _ _ _ K1)|exact (calls_some _ _ _ K2)].
  split; [exact (calls_prog _ _ _ _ K1)|exact (calls_prog _ _ _ _ K2)].
Qed.

Lemma now_swap_in s sa da sm dm mo a xs xd xp pp : U64 mo -> U64 a ->
  client_swap_exact_in D V s sa da sm dm LST_STATE_LIST_ID mo a xs xd xp pp = Ok t -> run D E C w t = Ok w' ->
  client_swap_exact_in D w s sa da sm dm LST_STATE_LIST_ID mo a xs xd xp pp = Ok t.
Proof.
  unfold client_swap_exact_in. intros U1 U2 B H. apply bind_ok in B as (((keys & i & j) & p & q) & Hk & B).
  apply bind_ok in B as (i' & Hi & B). apply bind_ok in B as (j' & Hj & B). apply bind_ok in B as ((g & ns & nd) & Hg & B).
  apply bind_ok in B as (gp & Hgp & B). injection B as <-. apply u32_is in Hi as (-> & Hu), Hj as (-> & Hu').
  destruct (now_swap_keys _ _ _ _ _ _ _ _ _ _ Hk) as (asm & adm & r & r' & f & -> & Hi & Hj & Hcr).
  pose proof Hg as Hg'. unfold extend_with_src_dst, extend_with_calc in Hg. cbn [fst snd] in Hg.
  apply bind_ok in Hg as ((gs & n1) & Ha & Hg). apply bind_ok in Hg as ((gd & n2) & Ha0 & Hg). injection Hg as <- <- <-.
  apply guard_ok in Ha as (L1 & Ha). injection Ha as <- <-. apply guard_ok in Ha0 as (L2 & Ha0). injection Ha0 as <- <-.
  destruct (was_trade D HD E C w HR _ _ _ H) as (asked & more & R & P); [|reflexivity|].
  { cbn [ix_wfb si_src_lst_value_calc_accs si_dst_lst_value_calc_accs si_src_lst_index si_dst_lst_index si_min_amount_out si_amount].
    rewrite (u8_of _ L1), (u8_of _ L2), Hu, Hu', (u64b_ok _ U1), (u64b_ok _ U2). reflexivity. }
  rewrite <- app_assoc in P. inversion R. subst asked more0.
  match goal with X : swap_groups _ _ _ _ _ _ _ _ _ |- _ => 
    destruct (swap_passed _ _ _ _ _ _ _ _ _ _ _ xs _ xd _ _ _ _ _ _ _ _ _ _ _ P X) as ((E1 & E2 & E3 & E4 & E5 & E6 & E7) & E8 & E9) end.
  subst sm dm f asm adm r r' p q. match goal with L : the_list w = Some ?l, N1 : nth_error ?l (Z.to_nat i) = Some _, N2 : nth_error ?l (Z.to_nat j) = Some _ |- _ =>
    rewrite (now_swap_keys_ok _ _ _ _ _ s sa da L Hi Hj N1 N2) end. cbn [bind].
  unfold index_to_u32. rewrite Hu, Hu'. cbn [guard bind]. rewrite Hg'. cbn [bind]. rewrite Hgp. reflexivity.
Qed.
Lemma now_swap_out s sa da sm dm mo a xs xd xp pp : U64 mo -> U64 a ->
  client_swap_exact_out D V s sa da sm dm LST_STATE_LIST_ID mo a xs xd xp pp = Ok t -> run D E C w t = Ok w' ->
  client_swap_exact_out D w s sa da sm dm LST_STATE_LIST_ID mo a xs xd xp pp = Ok t.
Proof.
  unfold client_swap_exact_out. intros U1 U2 B H. apply bind_ok in B as (((keys & i & j) & p & q) & Hk & B).
  apply bind_ok in B as (i' & Hi & B). apply bind_ok in B as (j' & Hj & B). apply bind_ok in B as ((g & ns & nd) & Hg & B).
  apply bind_ok in B as (gp & Hgp & B). injection B as <-. apply u32_is in Hi as (-> & Hu), Hj as (-> & Hu').
  destruct (now_swap_keys _ _ _ _ _ _ _ _ _ _ Hk) as (asm & adm & r & r' & f & -> & Hi & Hj & Hcr).
  pose proof Hg as Hg'. unfold extend_with_src_dst, extend_with_calc in Hg. cbn [fst snd] in Hg.
  apply bind_ok in Hg as ((gs & n1) & Ha & Hg). apply bind_ok in Hg as ((gd & n2) & Ha0 & Hg). injection Hg as <- <- <-.
  apply guard_ok in Ha as (L1 & Ha). injection Ha as <- <-. apply guard_ok in Ha0 as (L2 & Ha0). injection Ha0 as <- <-.
  destruct (was_trade D HD E C w HR _ _ _ H) as (asked & more & R & P); [|reflexivity|].
  { cbn [ix_wfb so_src_lst_value_calc_accs so_dst_lst_value_calc_accs so_src_lst_index so_dst_lst_index so_max_amount_in so_amount].
    rewrite (u8_of _ L1), (u8_of _ L2), Hu, Hu', (u64b_ok _ U1), (u64b_ok _ U2). reflexivity. }
  rewrite <- app_assoc in P. inversion R. subst asked more0.
  match goal with X : swap_groups _ _ _ _ _ _ _ _ _ |- _ => 
    destruct (swap_passed _ _ _ _ _ _ _ _ _ _ _ xs _ xd _ _ _ _ _ _ _ _ _ _ _ P X) as ((E1 & E2 & E3 & E4 & E5 & E6 & E7) & E8 & E9) end.
  subst sm dm f asm adm r r' p q. match goal with L : the_list w = Some ?l, N1 : nth_error ?l (Z.to_nat i) = Some _, N2 : nth_error ?l (Z.to_nat j) = Some _ |- _ =>
    rewrite (now_swap_keys_ok _ _ _ _ _ s sa da L Hi Hj N1 N2) end. cbn [bind].
  unfold index_to_u32. rewrite Hu, Hu'. cbn [guard bind]. rewrite Hg'. cbn [bind]. rewrite Hgp. reflexivity.
Qed.
Lemma liq_passed s la lp m lpm f tp r p xs gp ls who from to more ps ms mp :
  passes ([sg s; ro m; wr la; wr lp; wr lpm; wr f; ro tp; ro SPL_TOKEN_ID; wr POOL_STATE_ID; wr LST_STATE_LIST_ID; wr r] ++
          (ro p :: skipn 1 xs) ++ gp) (liq_asks D w ps (ls_mint ls) who from to) more ->
  liq_groups more (len xs) ps ls ms mp ->
  (m = ls_mint ls /\ lpm = lp_token_mint ps /\ f = accumulator_key D w (ls_mint ls) /\ tp = w_owner w (ls_mint ls) /\
   r = reserves_key D w (ls_mint ls)) /\ p = sol_value_calculator ls /\ calls gp (pricing_program ps) mp.
Proof.
  intros P (g1 & g2 & Em & N1 & K1 & K2). unfold liq_asks in P.
  assert (more = (ro p :: skipn 1 xs) ++ gp /\ (m = ls_mint ls /\ lpm = lp_token_mint ps /\ f = accumulator_key D w (ls_mint ls) /\ tp = w_owner w (ls_mint ls) /\
   r = reserves_key D w (ls_mint ls))) as (Eq & Fs).
  { clear Em. revert P. generalize ((ro p :: skipn 1 xs) ++ gp). intros rest P. passed P. auto 10. }
  split; [exact Fs|]. rewrite Em in Eq. symmetry in Eq.
  apply one_group in Eq as (-> & ->); [|exact N1|exact (calls_some _ _ _ K1)].
  split; [exact (calls_prog _ _ _ _ K1)|exact K2].
Qed.
Lemma now_liquidity s la lp m ca pa mkix :
  (forall n i, u8b n = true -> u32b i = true -> ix_wfb (mkix n i) = true) ->
  (forall n i, is_trade_ix (mkix n i) = true) ->
  (forall n i asked more, trade_rule D E C w (mkix n i) asked more w' ->
     exists ps l ls who from to ms mp, the_pool w = Some ps /\ the_list w = Some l /\ nth_error l (Z.to_nat i) = Some ls /\
       liq_groups more n ps ls ms mp /\ asked = liq_asks D w ps (ls_mint ls) who from to) ->
  client_liquidity D V s la lp POOL_STATE_ID LST_STATE_LIST_ID m ca pa mkix = Ok t -> run D E C w t = Ok w' ->
  client_liquidity D w s la lp POOL_STATE_ID LST_STATE_LIST_ID m ca pa mkix = Ok t.
Proof.
  unfold client_liquidity. intros Hwf Htr Hru B H. apply bind_ok in B as (lv & Hlv & B). apply bind_ok in B as ((i & lsv) & Hf & B).
  apply bind_ok in B as (r & Hr & B). apply bind_ok in B as (f & Hpf & B). apply bind_ok in B as (pv & Hpv & B).
  apply bind_ok in B as (i' & Hi & B). apply bind_ok in B as ((g & n) & Hg & B). apply bind_ok in B as ((gp & n') & Hgp & B). injection B as <-.
  apply u32_is in Hi as (-> & Hu). pose proof Hg as Hg'. pose proof Hgp as Hgp'. unfold extend_with_calc in Hg, Hgp.
  apply guard_ok in Hg as (L1 & Hg). injection Hg as <- <-. apply guard_ok in Hgp as (L2 & Hgp). injection Hgp as <- <-.
  apply find_lst_spec in Hf as (Hi & _ & _).
  destruct (was_trade D HD E C w HR _ _ _ H) as (asked & more & R & P); [apply Hwf; [exact (u8_of _ L1)|exact Hu]|apply Htr|].
  destruct (Hru _ _ _ _ R) as (ps & l & ls & who & from & to & ms & mp & Hp & Hl & Hn & X & ->).
  destruct (liq_passed _ _ _ _ _ _ _ _ _ ca _ _ _ _ _ _ _ _ _ P X) as ((E1 & E2 & E3 & E4 & E5) & E6 & E7). apply calls_prog in E7.
  rewrite E2, E3, E4, E5, E1. destruct (now_found D HD w HR _ _ _ Hl (proj1 Hi) Hn) as (F1 & F2 & F3).
  rewrite (list_at _ _ Hl). cbn [bind]. rewrite F1. cbn [bind]. rewrite F2. cbn [bind]. rewrite F3. cbn [bind].
  rewrite (pool_at _ _ Hp). cbn [bind]. unfold index_to_u32. rewrite Hu. cbn [guard bind]. rewrite <- E6, Hg', <- E7, Hgp'. reflexivity.
Qed.
Lemma now_start to sm dm a ms md xs xd : U64 a -> U64 ms -> U64 md ->
  client_start_rebalance D V to LST_STATE_LIST_ID POOL_STATE_ID sm dm a ms md xs xd = Ok t -> run D E C w t = Ok w' ->
  client_start_rebalance D w to LST_STATE_LIST_ID POOL_STATE_ID sm dm a ms md xs xd = Ok t.
Proof.
  unfold client_start_rebalance. intros U1 U2 U3 B H. apply bind_ok in B as (lv & Hlv & B). apply bind_ok in B as ((i & lsv) & Hf & B).
  apply bind_ok in B as (r & Hr & B). apply bind_ok in B as ((j & ldv) & Hf' & B). apply bind_ok in B as (r' & Hr' & B).
  apply bind_ok in B as (pv & Hpv & B). apply bind_ok in B as (i' & Hi & B). apply bind_ok in B as (j' & Hj & B).
  apply bind_ok in B as ((g & ns & nd) & Hg & B). injection B as <-.
  apply u32_is in Hi as (-> & Hu), Hj as (-> & Hu').
  pose proof Hg as Hg'. unfold extend_with_src_dst, extend_with_calc in Hg. cbn [fst snd] in Hg.
  apply bind_ok in Hg as ((gs & n1) & Ha & Hg). apply bind_ok in Hg as ((gd & n2) & Ha0 & Hg). injection Hg as <- <- <-.
  apply guard_ok in Ha as (L1 & Ha). injection Ha as <- <-. apply guard_ok in Ha0 as (L2 & Ha0). injection Ha0 as <- <-.
  apply find_lst_spec in Hf as (Hi & _ & Hms), Hf' as (Hj & _ & Hmd).
  destruct (was_trade D HD E C w HR _ _ _ H) as (asked & more & R & P); [|reflexivity|].
  { cbn [ix_wfb sr_src_lst_calc_accs sr_src_lst_index sr_dst_lst_index sr_amount sr_min_starting_src_lst sr_max_starting_dst_lst].
    rewrite (u8_of _ L1), Hu, Hu', (u64b_ok _ U1), (u64b_ok _ U2), (u64b_ok _ U3). reflexivity. }
  inversion R. subst asked more.
  assert (X : gs ++ gd = (ro (sol_value_calculator lsv) :: skipn 1 xs) ++ (ro (sol_value_calculator ldv) :: skipn 1 xd) /\
    (rebalance_authority pv = rebalance_authority ps /\ ls_mint lsv = ls_mint s /\ ls_mint ldv = ls_mint d /\ r = reserves_key D w (ls_mint s) /\
     r' = reserves_key D w (ls_mint d) /\ w_owner V sm = w_owner w (ls_mint s))).
  { revert P. generalize (gs ++ gd). intros x P. clear - P. passed P. split; [reflexivity|]. auto 10. }
  destruct X as (Eq & E1 & E2 & E3 & E4 & E5 & E6). symmetry in Eq. 
  match goal with X : Z.of_nat (length gs) = _, K1 : calls gs _ _, K2 : calls gd _ _ |- _ =>
    apply one_group in Eq as (-> & ->); [|exact X|exact (calls_some _ _ _ K1)]; apply calls_prog in K1, K2; rename K1 into G1; rename K2 into G2 end.
  match goal with L : the_list w = Some ?l, N1 : nth_error ?l (Z.to_nat i) = Some s, N2 : nth_error ?l (Z.to_nat j) = Some d, Q : the_pool w = Some ps |- _ =>
    destruct (now_found D HD w HR _ _ _ L (proj1 Hi) N1) as (F1 & F2 & _); destruct (now_found D HD w HR _ _ _ L (proj1 Hj) N2) as (F1' & F2' & _);
    rewrite (list_at _ _ L); cbn [bind] end.
  assert (sm = ls_mint s) as -> by congruence. assert (dm = ls_mint d) as -> by congruence.
  rewrite F1; cbn [bind]; rewrite F2; cbn [bind]; rewrite F1'; cbn [bind]; rewrite F2'; cbn [bind].
  match goal with Q : the_pool w = Some ps |- _ => rewrite (pool_at _ _ Q) end. cbn [bind].
  unfold index_to_u32. rewrite Hu, Hu'. cbn [guard bind]. rewrite <- G1, <- G2, Hg'. cbn [bind].
  rewrite E1, E2, E3, E4, E5, E6. reflexivity.
Qed.
End Now.

(* ------------------------------------------------------------------ *)
(** * What is carried out is what would be built now *)

Ltac rule R := inversion R; subst; clear R.
Ltac rebuild := repeat match goal with
  | H : the_pool ?w = Some _ |- context [try_pool_state ?w POOL_STATE_ID] => rewrite (pool_at _ _ H)
  | H : the_list ?w = Some _ |- context [try_lst_state_list ?w LST_STATE_LIST_ID] => rewrite (list_at _ _ H)
  | H : the_authorities ?w = Some _ |- context [try_disable_pool_authority_list ?w DISABLE_POOL_AUTHORITY_LIST_ID] => rewrite (auth_at _ _ H)
  | |- context [?x =? ?x] => rewrite Z.eqb_refl
  | H : u32b ?i = true |- context [u32b ?i] => rewrite H
  | |- _ => progress (cbn [bind guard of_option])
  end.
Ltac same := rebuild; repeat match goal with H : ?x = ?y |- context [?y] => first [is_var x; fail 1|rewrite <- H] end; reflexivity.

Theorem C57_as_if_built_now D (HD : derive_ok D) E C V w q t w' :
  reachable D w -> request_typed q -> build D V q = Ok t -> run D E C w t = Ok w' ->
  build D w q = Ok t \/ build D w (other_capacity q) = Ok t.
Proof.
  intros HR Ht B H. destruct q; cbn [build other_capacity] in *.
  - left. eapply now_sync; eauto.
  - destruct Ht. left. eapply now_swap_in; eauto.
  - destruct Ht. left. eapply now_swap_out; eauto.
  - destruct Ht as (U1 & U2). left. unfold client_add_liquidity in *. revert B H. apply now_liquidity; auto.
    + intros n i Hn Hi. cbn [ix_wfb al_lst_value_calc_accs al_lst_index al_lst_amount al_min_lp_out]. rewrite Hn, Hi, (u64b_ok _ U1), (u64b_ok _ U2). reflexivity.
    + intros n i asked more R. inversion R. subst. do 8 eexists. split; [eassumption|]. split; [eassumption|]. split; [eassumption|]. split; [eassumption|reflexivity].
  - destruct Ht as (U1 & U2). left. unfold client_remove_liquidity in *. revert B H. apply now_liquidity; auto.
    + intros n i Hn Hi. cbn [ix_wfb rl_lst_value_calc_accs rl_lst_index rl_lp_token_amount rl_min_lst_out]. rewrite Hn, Hi, (u64b_ok _ U1), (u64b_ok _ U2). reflexivity.
    + intros n i asked more R. inversion R. subst. do 8 eexists. split; [eassumption|]. split; [eassumption|]. split; [eassumption|]. split; [eassumption|reflexivity].
  - (* disable input *) left. unfold client_disable_lst_input, client_set_lst_input in *. unplan B. destruct a0 as (i & lsv). unplan B. injection B as <-.
    apply u32_is in Ha2 as (-> & Hu). apply find_lst_spec in Ha0 as (_ & _ & Hm).
    destruct (was_admin D HD E C w HR _ _ _ H Hu eq_refl) as (asked & more & ch & R & P). rule R. passed P.
    match goal with L : the_list w = Some (_ ++ ?ls :: _) |- _ => destruct (now_found' D HD w HR _ _ _ L) as (F1 & _) end.
    match goal with X : ls_mint lsv = _ |- _ => rewrite X in * end. rebuild. rewrite F1. rebuild. unfold index_to_u32. rebuild. congruence.
  - (* enable input *) left. unfold client_enable_lst_input, client_set_lst_input in *. unplan B. destruct a0 as (i & lsv). unplan B. injection B as <-.
    apply u32_is in Ha2 as (-> & Hu). apply find_lst_spec in Ha0 as (_ & _ & Hm).
    destruct (was_admin D HD E C w HR _ _ _ H Hu eq_refl) as (asked & more & ch & R & P). rule R. passed P.
    match goal with L : the_list w = Some (_ ++ ?ls :: _) |- _ => destruct (now_found' D HD w HR _ _ _ L) as (F1 & _) end.
    match goal with X : ls_mint lsv = _ |- _ => rewrite X in * end. rebuild. rewrite F1. rebuild. unfold index_to_u32. rebuild. congruence.
  - (* add LST *) left. unfold client_add_lst in *. unplan B. injection B as <-.
    destruct (was_admin D HD E C w HR _ _ _ H eq_refl eq_refl) as (asked & more & ch & R & P). rule R. passed P. rebuild. congruence.
  - (* remove LST *) left. unfold client_remove_lst in *. unplan B. destruct a0 as (i & lsv). unplan B. injection B as <-.
    destruct (was_admin D HD E C w HR _ _ _ H Hg eq_refl) as (asked & more & ch & R & P). rule R. passed P.
    match goal with L : the_list w = Some (_ ++ ?ls :: _) |- _ => destruct (now_found' D HD w HR _ _ _ L) as (F1 & F2 & F3) end.
    rebuild. rewrite F1. rebuild. rewrite F2. rebuild. rewrite F3. rebuild. congruence.
  - (* calculator *) left. unfold client_set_sol_value_calculator in *. unplan B. destruct a0 as (i & lsv). unplan B. 
    match goal with a : list Meta * Z |- _ => destruct a as (g & n) end. injection B as <-.
    match goal with X : index_to_u32 _ = _ |- _ => apply u32_is in X as (-> & Hu) end. apply find_lst_spec in Ha0 as (_ & _ & Hm).
    match goal with X : extend_with_calc _ _ = Ok _ |- _ => rename X into Hg end.
    pose proof Hg as Hg'. unfold extend_with_calc in Hg. apply guard_ok in Hg as (L1 & Hg). injection Hg as <- <-.
    destruct (was_admin D HD E C w HR _ _ _ H Hu eq_refl) as (asked & more & ch & R & P). rule R. passed P.
    match goal with L : the_list w = Some (_ ++ ?ls :: _) |- _ => destruct (now_found' D HD w HR _ _ _ L) as (F1 & F2 & _) end.
    match goal with X : ls_mint lsv = _ |- _ => rewrite X in * end. rebuild. rewrite F1. rebuild. rewrite F2. rebuild. unfold index_to_u32. rebuild.
    rewrite Hg'. rebuild. cbn [app]. congruence.
  - left. unfold client_set_admin in *. unplan B. injection B as <-.
    destruct (was_admin D HD E C w HR _ _ _ H eq_refl eq_refl) as (asked & more & ch & R & P). rule R. passed P. rebuild. congruence.
  - left. unfold client_set_protocol_fee in *. unplan B. injection B as <-. destruct Ht as (T1 & T2).
    assert (Hwf : ix_wfb (SetProtocolFee trading lp) = true) by (cbn [ix_wfb]; rewrite (opt16 _ T1), (opt16 _ T2); reflexivity).
    destruct (was_admin D HD E C w HR _ _ _ H Hwf eq_refl) as (asked & more & ch & R & P). rule R. passed P. rebuild. congruence.
  - left. unfold client_set_protocol_fee_beneficiary in *. unplan B. injection B as <-.
    destruct (was_admin D HD E C w HR _ _ _ H eq_refl eq_refl) as (asked & more & ch & R & P). rule R. passed P. rebuild. congruence.
  - left. unfold client_set_pricing_program in *. unplan B. injection B as <-.
    destruct (was_admin D HD E C w HR _ _ _ H eq_refl eq_refl) as (asked & more & ch & R & P). rule R. passed P. rebuild. congruence.
  - (* withdraw *) left. unfold client_withdraw_protocol_fees in *. unplan B. injection B as <-. unfold token_account_mint in *.
    assert (Hwf : ix_wfb (WithdrawProtocolFees amount) = true) by (cbn [ix_wfb]; apply u64b_ok, Ht).
    destruct (was_admin D HD E C w HR _ _ _ H Hwf eq_refl) as (asked & more & ch & R & P). unfold withdraw_metas in *. rule R. passed P.
    rebuild. match goal with X : w_tok w to = Some _ |- _ => rewrite X end. rebuild. congruence.
  - (* withdraw, by mint *) left. unfold client_withdraw_protocol_fees_by_mint in *. unplan B. injection B as <-.
    assert (Hwf : ix_wfb (WithdrawProtocolFees amount) = true) by (cbn [ix_wfb]; apply u64b_ok, Ht).
    destruct (was_admin D HD E C w HR _ _ _ H Hwf eq_refl) as (asked & more & ch & R & P). unfold withdraw_metas in *. rule R. passed P. rebuild. congruence.
  - left. unfold client_add_disable_pool_authority in *. unplan B. injection B as <-.
    destruct (was_admin D HD E C w HR _ _ _ H eq_refl eq_refl) as (asked & more & ch & R & P). rule R. passed P. rebuild. congruence.
  - (* remove authority *) left. unfold client_remove_disable_pool_authority in *. unplan B. injection B as <-. apply u32_is in Ha1 as (-> & Hu).
    destruct (was_admin D HD E C w HR _ _ _ H Hu eq_refl) as (asked & more & ch & R & P). rule R. passed P.
    match goal with X : Z.of_nat (length _) = Z.of_nat _ |- _ => apply Nat2Z.inj in X; rename X into Hb end. rebuild.
    rewrite (found_key a0 authority before after); [|destruct (reachable_inv D HD w HR) as (Hbi & _);
      match goal with X : the_authorities w = Some _ |- _ => pose proof (base_auth _ _ Hbi X) as Hnd end;
      apply NoDup_remove_2 in Hnd; rewrite in_app_iff in Hnd; tauto|congruence]. cbn [of_option bind]. unfold index_to_u32. rebuild. reflexivity.
  - left. exact B.
  - left. unfold client_enable_pool in *. unplan B. injection B as <-.
    destruct (was_admin D HD E C w HR _ _ _ H eq_refl eq_refl) as (asked & more & ch & R & P). rule R. passed P. rebuild. congruence.
  - (* rebalance authority *) unfold client_set_rebalance_authority in *. unplan B. injection B as <-.
    destruct (was_admin D HD E C w HR _ _ _ H eq_refl eq_refl) as (asked & more & ch & R & P). rule R. passed P. rebuild.
    match goal with X : _ \/ _ |- _ => destruct X as [X|X]; rewrite X end; destruct by_admin; cbn [negb]; auto.
  - left. exact B.
  - destruct Ht as (U1 & U2 & U3). left. eapply now_start; eauto.
Qed.

(* ------------------------------------------------------------------ *)
(** * The operator's tool *)

Lemma same_head {A} (x y : A) l l' : x :: l = y :: l' -> x = y.
Proof. now intros [= -> _]. Qed.
Ltac verify := unfold cli_verify; repeat match goal with
  | X : admin ?a = admin ?b |- context [admin ?b =? admin ?a] => rewrite X
  | X : admin ?a = admin ?b |- context [admin ?a =? admin ?b] => rewrite X
  | X : protocol_fee_beneficiary ?a = protocol_fee_beneficiary ?b |- context [protocol_fee_beneficiary ?a =? protocol_fee_beneficiary ?b] => rewrite X
  end; rebuild.

Lemma withdraw_seen D E x ps to f tp m a asked more ch : admin_rule D E x (WithdrawProtocolFees a) asked more ch ->
  passes (withdraw_metas ps to f tp m) asked more ->
  exists p tf, the_pool x = Some p /\ protocol_fee_beneficiary ps = protocol_fee_beneficiary p /\ w_tok x f = Some tf.
Proof. unfold withdraw_metas. intros R P. rule R. passed P. eauto. Qed.

Section Tool.
Context (D : Derive).
Hypothesis HD : derive_ok D.
Context (E : Env) (C : Ctx) (w0 w w1 w' : World) (payer auth : key) (c : Cmd).
Hypothesis HR0 : reachable D w0.
Hypothesis HR : reachable D w.
Hypothesis Ht : cmd_typed c.

Lemma still_mint b ls a : the_list w = Some (b ++ ls :: a) -> mint_fetched w (ls_mint ls) = Ok tt.
Proof.
  intros Hl. pose proof (reachable_ata D HD w HR) as (_ & Hat & _). specialize (Hat _ Hl). rewrite Forall_forall in Hat.
  destruct (Hat ls) as (_ & Hmi & _); [apply in_or_app; right; left; reflexivity|]. unfold mint_fetched.
  destruct (w_mint w (ls_mint ls)); [reflexivity|congruence].
Qed.

Lemma late_plan create t : plan D w0 payer auth c = Ok (create, t) -> signed payer auth t = true ->
  match create with
  | Some (ata, wallet, m, tp) => guard (negb (acc_exists w ata)) SystemErr (create_ata_account w ata wallet m tp)
  | None => Ok w end = Ok w1 -> run D E C w1 t = Ok w' ->
  plan D w payer auth (as_read D w0 c) = Ok (create, t).
Proof.
  intros Hp Hs Hc H. destruct c; cbn [plan as_read] in *.
  - exact Hp.
  - unfold client_set_admin in *. unplan Hp. injection Hp as <- <-. injection Hc as <-. unplan Ha1. injection Ha1 as <-. facts.
    destruct (was_admin D HD E C w HR _ _ _ H eq_refl eq_refl) as (asked & more & ch & R & P). rule R. passed P. rebuild. verify. congruence.
  - unfold client_set_protocol_fee in *. unplan Hp. injection Hp as <- <-. injection Hc as <-. unplan Ha1. injection Ha1 as <-. facts. destruct Ht as (T1 & T2).
    assert (Hwf : ix_wfb (SetProtocolFee trading lp) = true) by (cbn [ix_wfb]; rewrite (opt16 _ T1), (opt16 _ T2); reflexivity).
    destruct (was_admin D HD E C w HR _ _ _ H Hwf eq_refl) as (asked & more & ch & R & P). rule R. passed P. rebuild. verify. congruence.
  - unfold client_set_protocol_fee_beneficiary in *. unplan Hp. injection Hp as <- <-. injection Hc as <-. unplan Ha1. injection Ha1 as <-. facts.
    destruct (was_admin D HD E C w HR _ _ _ H eq_refl eq_refl) as (asked & more & ch & R & P). rule R. passed P. rebuild. verify. congruence.
  - unfold client_set_pricing_program in *. unplan Hp. injection Hp as <- <-. injection Hc as <-. unplan Ha1. injection Ha1 as <-. facts.
    destruct (was_admin D HD E C w HR _ _ _ H eq_refl eq_refl) as (asked & more & ch & R & P). rule R. passed P. rebuild. verify. congruence.
  - (* rebalance authority *) unfold client_set_rebalance_authority in *. unplan Hp. injection Hp as <- <-. injection Hc as <-. facts.
    assert (a0 = built [sg auth; ro new_authority; wr POOL_STATE_ID] SetRebalanceAuthority) as ->.
    { destruct (Z.eqb_spec (admin a) auth) as [Ea|Ea]; [|destruct (Z.eqb_spec (rebalance_authority a) auth) as [Er|Er]; [|discriminate]];
        unplan Ha0; injection Ha0 as <-; facts; congruence. }
    destruct (was_admin D HD E C w HR _ _ _ H eq_refl eq_refl) as (asked & more & ch & R & P). rule R. passed P. rebuild.
    destruct (Z.eqb_spec (admin ps) auth) as [Ea|Ea]; [rebuild; congruence|].
    destruct (Z.eqb_spec (rebalance_authority ps) auth) as [Er|Er]; [rebuild; congruence|].
    match goal with X : auth = _ \/ auth = _ |- _ => destruct X; congruence end.
  - unfold client_add_disable_pool_authority in *. unplan Hp. injection Hp as <- <-. injection Hc as <-. unplan Ha1. injection Ha1 as <-. facts.
    destruct (was_admin D HD E C w HR _ _ _ H eq_refl eq_refl) as (asked & more & ch & R & P). rule R. passed P. rebuild. verify. congruence.
  - (* remove authority *) unplan Hp. injection Hp as <- <-. injection Hc as <-.
    match goal with X : client_remove_disable_pool_authority _ ?r _ _ _ = Ok ?t |- _ => rename X into B;
      destruct (C57_as_if_built_now D HD E C w0 w (QRemoveAuthority r auth removing) t w' HR I B H) as [B'|B']; cbn [build other_capacity] in B';
      (unfold client_remove_disable_pool_authority in B; unplan B; injection B as <-) end;
      match goal with X : index_to_u32 _ = Ok _ |- _ => apply u32_is in X as (-> & Hu) end;
      destruct (was_admin D HD E C w HR _ _ _ H Hu eq_refl) as (asked & more & ch & R & P); rule R; passed P; rebuild;
      (match goal with |- bind ?x _ = _ => replace x with (@Ok unit tt) end; [cbn [bind]; rewrite B'; reflexivity|]);
      (destruct (Z.eqb_spec (admin ps) auth); [reflexivity|]); unfold cli_verify_disable_authority;
      (match goal with X : auth = _ \/ auth = _ |- _ => destruct X as [X|X]; [congruence|rewrite <- X] end);
      rewrite existsb_in by (apply in_or_app; right; left; reflexivity); verify; reflexivity.
  - (* disable *) unplan Hp. injection Hp as <- <-. injection Hc as <-.
    destruct (was_admin D HD E C w HR _ _ _ H eq_refl eq_refl) as (asked & more & ch & R & P). rule R. passed P. rebuild.
    (match goal with |- bind ?x _ = _ => replace x with (@Ok unit tt) end; [cbn [bind]; reflexivity|]).
    destruct (Z.eqb_spec (admin ps) auth); [reflexivity|]. unfold cli_verify_disable_authority.
    match goal with X : auth = _ \/ In auth _ |- _ => destruct X as [X|X]; [congruence|rewrite existsb_in by exact X] end. reflexivity.
  - unfold client_enable_pool in *. unplan Hp. injection Hp as <- <-. injection Hc as <-. unplan Ha1. injection Ha1 as <-. facts.
    destruct (was_admin D HD E C w HR _ _ _ H eq_refl eq_refl) as (asked & more & ch & R & P). rule R. passed P. rebuild. verify. congruence.
  - (* disable input *) unplan Hp. injection Hp as <- <-. injection Hc as <-.
    destruct (C57_as_if_built_now D HD E C w0 w (QDisableInput mint) _ w' HR I Ha1 H) as [B'|B']; cbn [build other_capacity] in B';
    rewrite B'; clear B'; unfold client_disable_lst_input, client_set_lst_input in Ha1; unplan Ha1;
    (match goal with a : Z * LstState |- _ => destruct a as (i & ls) end); unplan Ha1; injection Ha1 as <-; facts;
    (match goal with X : u32b _ = true |- _ => destruct (was_admin D HD E C w HR _ _ _ H X eq_refl) as (asked & more & ch & R & P) end);
    rule R; passed P; rebuild; verify; reflexivity.
  - (* enable input *) unplan Hp. injection Hp as <- <-. injection Hc as <-.
    destruct (C57_as_if_built_now D HD E C w0 w (QEnableInput mint) _ w' HR I Ha H) as [B'|B']; cbn [build other_capacity] in B'; rewrite B'; reflexivity.
  - (* add LST *) unplan Hp. injection Hp as <- <-. injection Hc as <-.
    destruct (C57_as_if_built_now D HD E C w0 w (QAddLst payer calculator mint) _ w' HR I Ha2 H) as [B'|B']; cbn [build other_capacity] in B';
    rewrite B'; clear B'; unfold client_add_lst in Ha2; unplan Ha2; injection Ha2 as <-; facts;
    destruct (was_admin D HD E C w HR _ _ _ H eq_refl eq_refl) as (asked & more & ch & R & P);
    rule R; passed P; unfold mint_fetched; (match goal with X : w_mint w _ = Some _ |- _ => rewrite X end); rebuild; verify; reflexivity.
  - (* remove LST *) unplan Hp. injection Hp as <- <-. injection Hc as <-.
    match goal with X : client_remove_lst _ _ ?r _ _ _ = Ok ?t |- _ => rename X into B;
      destruct (C57_as_if_built_now D HD E C w0 w (QRemoveLst r mint) t w' HR I B H) as [B'|B']; cbn [build other_capacity] in B';
      rewrite B'; clear B'; (unfold client_remove_lst in B; unplan B) end;
    (match goal with a : Z * LstState |- _ => destruct a as (i & ls) end); unplan B; injection B as <-;
    (match goal with X : u32b _ = true |- _ => destruct (was_admin D HD E C w HR _ _ _ H X eq_refl) as (asked & more & ch & R & P) end);
    rule R; passed P; (match goal with X : the_list w = Some _ |- _ => rewrite (still_mint _ _ _ X) end); reflexivity.
  - (* calculator *) unplan Hp. injection Hp as <- <-. injection Hc as <-.
    match goal with X : client_set_sol_value_calculator _ _ _ _ _ ?g _ = Ok ?t |- _ => rename X into B;
      destruct (C57_as_if_built_now D HD E C w0 w (QSetCalculator mint g calculator) t w' HR I B H) as [B'|B']; cbn [build other_capacity] in B';
      rewrite B'; clear B'; (unfold client_set_sol_value_calculator, extend_with_calc in B; unplan B) end;
    (match goal with a : Z * LstState |- _ => destruct a as (i & ls) end); unplan B;
    (match goal with a : list Meta * Z |- _ => destruct a as (g & n) end); unplan B; injection B as <-;
    (match goal with X : guard (len _ <=? _) _ _ = Ok (_, _) |- _ => unplan X; injection X as <- _ end); facts;
    (match goal with X : try_find_lst_mint_on_list _ _ = Ok _ |- _ => apply find_lst_spec in X as (_ & _ & Hm) end);
    (match goal with X : u32b _ = true |- _ => destruct (was_admin D HD E C w HR _ _ _ H X eq_refl) as (asked & more & ch & R & P) end);
    rule R; cbn [skipn app] in P; passed P; (match goal with X : ls_mint ?y = ls_mint _ |- context [mint_fetched _ (ls_mint ?y)] => rewrite X end);
    (match goal with X : the_list w = Some _ |- _ => rewrite (still_mint _ _ _ X) end); rebuild; verify; reflexivity.
  - (* withdraw *)
    set (to := match withdraw_to with Some k => k | None => fst (d_find D auth token_program mint) end) in *.
    apply bind_ok in Hp as (ps & Hps & Hp). apply bind_ok in Hp as (bal & Hbal & Hp). apply bind_ok in Hp as (u & Hv & Hp).
    apply bind_ok in Hp as (cr & Hcr & Hp). injection Hp as <- <-. facts. unfold token_account_balance, find_protocol_fee_accumulator_address in *.
    set (f := fst (d_find D PROTOCOL_FEE_ID token_program mint)) in *.
    apply bind_ok in Hbal as (tf & Hf & [= <-]). apply of_option_ok in Hf.
    set (a := match amount with Some x => x | None => ta_amount tf end) in *.
    assert (Ea : as_read D w0 (CWithdrawFees mint token_program withdraw_to amount) = CWithdrawFees mint token_program withdraw_to (Some a)).
    { unfold as_read, a, f in *. destruct amount; [reflexivity|]. unfold balance. rewrite Hf. reflexivity. }
    cbn [as_read] in Ea. fold f in Ea. rewrite Ea. cbn [plan]. fold to. unfold token_account_balance, find_protocol_fee_accumulator_address. fold f.
    assert (Ha : U64 a).
    { destruct (reachable_inv D HD w0 HR0) as ((l & au & _ & _ & _ & _ & _ & (U1 & _) & _) & _). unfold a. destruct amount as [x|]; [apply Ht; reflexivity|].
      exact (U1 _ _ Hf). }
    assert (Hwf : ix_wfb (WithdrawProtocolFees a) = true) by (cbn [ix_wfb]; unfold u64b; rewrite andb_true_iff, !Z.leb_le; exact Ha).
    destruct (acc_exists w0 to) eqn:X0.
    + injection Hcr as <-. injection Hc as <-.
      destruct (was_admin D HD E C w HR _ _ _ H Hwf eq_refl) as (asked & more & ch & R & P).
      unfold withdraw_metas in *. clearbody to f a. rule R. passed P. rebuild.
      match goal with X : w_tok w (accumulator_key _ _ _) = Some _ |- _ => rewrite X end. rebuild. verify. 
      unfold acc_exists. match goal with X : w_tok w to = Some _ |- _ => rewrite X end. rebuild. congruence.
    + destruct (Z.eqb_spec to (fst (d_find D auth token_program mint))) as [Eto|]; [|discriminate].
      injection Hcr as <-. apply guard_ok in Hc as (Hne & Hc). apply negb_true_iff in Hne. rewrite <- Eto in Hne.
      assert (Hnm : w_mint w to = None) by (unfold acc_exists in Hne; destruct (w_tok w to), (w_mint w to); (reflexivity || discriminate Hne)).
      rewrite <- Eto in Hc. destruct (create_reach D w to auth mint token_program w1 HD HR Eto Hnm Hc) as (HR1 & _ & Ew1 & Hn1 & Ho1 & _).
      destruct (was_admin D HD E C w1 HR1 _ _ _ H Hwf eq_refl) as (asked & more & ch & R & P).
      assert (Hnf : f <> to).
      { intros Hff. rewrite Hff in Hf. unfold acc_exists in X0. rewrite Hf in X0. discriminate. }
      assert (Hpw : the_pool w1 = the_pool w) by (rewrite Ew1; reflexivity).
      destruct (withdraw_seen _ _ _ _ _ _ _ _ _ _ _ _ R P) as (pw & tfw & Hp1 & Hb & Hf1). rewrite Hpw in Hp1.
      assert (Hfw : w_tok w f = Some tfw).
      { rewrite Ew1 in Hf1. cbn [w_tok put_owner put_tok] in Hf1. rewrite upd_other in Hf1 by exact Hnf. exact Hf1. }
      rewrite (pool_at _ _ Hp1). cbn [bind]. rewrite Hfw. cbn [of_option bind]. rewrite Hv, Hb. unfold cli_verify. rewrite Z.eqb_refl. cbn [guard bind].
      rewrite Hne. cbn [bind]. unfold withdraw_metas. rewrite Hb. reflexivity.
Qed.
End Tool.

(** The operator's command, carried out in a later state, does exactly what it would do if typed at that moment (with the
    amount the tool read in place of "all"), or is refused. *)
Theorem C57_tool_as_if_typed_now D (HD : derive_ok D) E C w0 w payer auth c w' :
  reachable D w0 -> reachable D w -> cmd_typed c ->
  late_command D E C w0 w payer auth c = Ok w' -> command D E C w payer auth (as_read D w0 c) = Ok w'.
Proof.
  intros H0 HR Ht H. unfold late_command in H. apply bind_ok in H as ((create & t) & Hp & H). apply guard_ok in H as (Hs & H).
  apply bind_ok in H as (w1 & Hc & H). unfold command. rewrite (late_plan D HD E C w0 w w1 w' payer auth c H0 HR Ht create t Hp Hs Hc H).
  cbn [bind]. rewrite Hs. cbn [guard]. destruct create as [(((ata & wl) & m) & tp)|].
  - apply guard_ok in Hc as (_ & Hc). rewrite Hc. exact H.
  - injection Hc as <-. exact H.
Qed.
(** So its effect is the one the command's rule (C53) gives in the state it lands in. *)
Corollary C57_tool_effect D (HD : derive_ok D) E C w0 w payer auth c w' :
  reachable D w0 -> reachable D w -> cmd_typed c -> late_command D E C w0 w payer auth c = Ok w' ->
  exists ch, cmd_rule D E w payer auth (as_read D w0 c) ch /\ applied w ch w'.
Proof.
  intros H0 HR Ht H. eapply C53_only; [exact HD|exact HR| |eapply C57_tool_as_if_typed_now; eauto].
  destruct c; cbn [as_read]; auto. destruct amount; [exact Ht|]. cbn [cmd_typed]. intros x [= <-].
  destruct (reachable_inv D HD w0 H0) as ((l & au & _ & _ & _ & _ & _ & (U1 & _) & _) & _). unfold balance.
  destruct (w_tok w0 _) as [t|] eqn:T; [exact (U1 _ _ T)|]. vm_compute. split; discriminate.
Qed.

(* ------------------------------------------------------------------ *)
(** * What a trader signs is what can happen *)
From Verif Require Import Concrete ConcreteReach.

(** The outcome of a trade for its signer: [pay] tokens of mint [pm] leave [from], [get] of mint [gm] arrive in [to], and no
    other account that is not the pool's loses anything. *)
Definition traded (w w' : World) (from pm : key) (pay : Z) (to gm : key) (get : Z) : Prop :=
  (exists u, w_tok w from = Some u /\ ta_mint u = pm) /\ (exists u, w_tok w to = Some u /\ ta_mint u = gm) /\
  balance w' from = balance w from - pay /\ balance w' to = balance w to + get /\
  (forall k, users_account w k -> k <> from -> balance w k <= balance w' k).

Section Trader.
Context (D : Derive).
Hypothesis HD : derive_ok D.
Context (w w' : World).
Hypothesis HR : reachable D w.
Hypothesis HR' : reachable D w'.

Lemma derived_not_users k wl pr m b u : wl = POOL_STATE_ID \/ wl = PROTOCOL_FEE_ID -> d_create D wl pr m b = Some k ->
  w_tok w k = Some u -> ~ users_account w k.
Proof.
  intros Hw Hc Hu Hk. pose proof (derived_held D w wl pr m b k u (proj1 (reachable_ata D HD w HR)) Hw Hc Hu) as Ho.
  destruct (Hk u Hu). destruct Hw; congruence.
Qed.
Lemma swap_traded metas sm dm from to r r' f a out fee pr m b :
  sw_src_mint metas = sm -> sw_dst_mint metas = dm -> sw_user_src metas = from -> sw_user_dst metas = to ->
  sw_src_reserves metas = r -> sw_dst_reserves metas = r' -> sw_fee_acc metas = f -> 0 <= a -> 0 <= out -> 0 <= fee ->
  d_create D POOL_STATE_ID pr m b = Some r' -> swap_moves w metas a out fee w' ->
  (exists u, w_tok w (sw_user_src metas) = Some u /\ ta_mint u = sw_src_mint metas /\ signed_by metas (ta_owner u)) ->
  (exists u, w_tok w (sw_user_dst metas) = Some u /\ ta_mint u = sw_dst_mint metas) ->
  traded w w' from sm a to dm out.
Proof.
  intros Em1 Em2 E1 E2 E3 E4 E5 Ha Ho Hf Hc (M1 & M2 & M3 & M4 & M5 & M6 & _) (u & T1 & T2 & _) (u' & T3 & T4).
  rewrite Em1, Em2, E1, E2, E3, E4, E5 in *. split; [eauto|]. split; [eauto|]. split; [exact M1|]. split; [exact M2|].
  intros k Hk Hne. destruct (in_dec Z.eq_dec k [from; to; r; r'; f]) as [Hin|Hin]; [|rewrite (M6 k Hin); lia].
  cbn [In] in Hin. destruct Hin as [<-|[<-|[<-|[<-|[<-|[]]]]]]; try lia.
  destruct (w_tok w r') as [x|] eqn:X; [destruct (derived_not_users _ _ _ _ _ _ (or_introl eq_refl) Hc X Hk)|].
  unfold balance at 1. rewrite X. destruct (reachable_inv D HD w' HR') as ((l & au & _ & _ & _ & _ & _ & (U1 & _) & _) & _).
  unfold balance. destruct (w_tok w' r') as [y|] eqn:Y; [|lia]. destruct (U1 _ _ Y). assumption.
Qed.
End Trader.

(** A swap made from whatever the trader saw, and carried out in whatever state the pool is in by then, takes the signed
    amount of the named mint out of the named account, and puts at least the signed minimum into the other. *)
Theorem C57_swap_exact_in D (HD : derive_ok D) E C V w s sa da sm dm mo a xs xd xp pp t w' :
  reachable D w -> U64 mo -> U64 a -> pdas_do_not_sign (ti_accs t) -> users_account w da ->
  build D V (QSwapExactIn s sa da sm dm mo a xs xd xp pp) = Ok t -> run D E C w t = Ok w' ->
  exists out, mo <= out /\ traded w w' sa sm a da dm out.
Proof.
  cbn [build]. unfold client_swap_exact_in. intros HR U1 U2 HN HU B H. apply bind_ok in B as (((keys & i & j) & p & q) & Hk & B).
  apply bind_ok in B as (i' & Hi & B). apply bind_ok in B as (j' & Hj & B). apply bind_ok in B as ((g & ns & nd) & Hg & B).
  apply bind_ok in B as (gp & Hgp & B). injection B as <-. apply u32_is in Hi as (-> & Hu), Hj as (-> & Hu').
  destruct (now_swap_keys D V _ _ _ _ _ _ _ _ _ _ Hk) as (asm & adm & r & r' & f & -> & Hi & Hj & (pr & m & b & Hcr)).
  unfold extend_with_src_dst, extend_with_calc in Hg. cbn [fst snd] in Hg.
  apply bind_ok in Hg as ((gs & n1) & Ha & Hg). apply bind_ok in Hg as ((gd & n2) & Ha0 & Hg). injection Hg as <- <- <-.
  apply guard_ok in Ha as (L1 & Ha). injection Ha as <- <-. apply guard_ok in Ha0 as (L2 & Ha0). injection Ha0 as <- <-.
  rewrite run_built in H.
  2:{ cbn [ix_wfb si_src_lst_value_calc_accs si_dst_lst_value_calc_accs si_src_lst_index si_dst_lst_index si_min_amount_out si_amount].
      rewrite (u8_of _ L1), (u8_of _ L2), Hu, Hu', (u64b_ok _ U1), (u64b_ok _ U2). reflexivity. }
  cbn [built ti_accs] in HN. pose proof (reach_ctl _ _ _ _ _ _ _ HR HN H) as HR'.
  destruct (C09_swap_exact_in D HD E C w _ _ w' HR HN HU H) as (out & fee & M & A & B & B' & F & P1 & P2).
  cbn [si_amount si_min_amount_out] in *. exists out. split; [exact B|].
  match type of M with swap_moves _ ?mm _ _ _ _ => apply (swap_traded D HD w w' HR HR' mm sm dm sa da r r' f a out fee pr m b) end; try reflexivity; try lia; assumption.
Qed.
(** An exact-out swap: the signed amount arrives, and no more than the signed maximum is paid. *)
Theorem C57_swap_exact_out D (HD : derive_ok D) E C V w s sa da sm dm mi a xs xd xp pp t w' :
  reachable D w -> U64 mi -> U64 a -> pdas_do_not_sign (ti_accs t) -> users_account w da ->
  build D V (QSwapExactOut s sa da sm dm mi a xs xd xp pp) = Ok t -> run D E C w t = Ok w' ->
  exists pay, 0 < pay <= mi /\ traded w w' sa sm pay da dm a.
Proof.
  cbn [build]. unfold client_swap_exact_out. intros HR U1 U2 HN HU B H. apply bind_ok in B as (((keys & i & j) & p & q) & Hk & B).
  apply bind_ok in B as (i' & Hi & B). apply bind_ok in B as (j' & Hj & B). apply bind_ok in B as ((g & ns & nd) & Hg & B).
  apply bind_ok in B as (gp & Hgp & B). injection B as <-. apply u32_is in Hi as (-> & Hu), Hj as (-> & Hu').
  destruct (now_swap_keys D V _ _ _ _ _ _ _ _ _ _ Hk) as (asm & adm & r & r' & f & -> & Hi & Hj & (pr & m & b & Hcr)).
  unfold extend_with_src_dst, extend_with_calc in Hg. cbn [fst snd] in Hg.
  apply bind_ok in Hg as ((gs & n1) & Ha & Hg). apply bind_ok in Hg as ((gd & n2) & Ha0 & Hg). injection Hg as <- <- <-.
  apply guard_ok in Ha as (L1 & Ha). injection Ha as <- <-. apply guard_ok in Ha0 as (L2 & Ha0). injection Ha0 as <- <-.
  rewrite run_built in H.
  2:{ cbn [ix_wfb so_src_lst_value_calc_accs so_dst_lst_value_calc_accs so_src_lst_index so_dst_lst_index so_max_amount_in so_amount].
      rewrite (u8_of _ L1), (u8_of _ L2), Hu, Hu', (u64b_ok _ U1), (u64b_ok _ U2). reflexivity. }
  cbn [built ti_accs] in HN. pose proof (reach_ctl _ _ _ _ _ _ _ HR HN H) as HR'.
  destruct (C09_swap_exact_out D HD E C w _ _ w' HR HN HU H) as (pay & fee & M & A & B & B' & F & P1 & P2).
  cbn [so_amount so_max_amount_in] in *. exists pay. split; [lia|].
  match type of M with swap_moves _ ?mm _ _ _ _ => apply (swap_traded D HD w w' HR HR' mm sm dm sa da r r' f pay a fee pr m b) end; try reflexivity; try lia; assumption.
Qed.

Lemma built_liquidity D V s la lp m ca pa mkix t : client_liquidity D V s la lp POOL_STATE_ID LST_STATE_LIST_ID m ca pa mkix = Ok t ->
  exists i lpm f tp r rest pr mm b, t = built ([sg s; ro m; wr la; wr lp; wr lpm; wr f; ro tp; ro SPL_TOKEN_ID; wr POOL_STATE_ID; wr LST_STATE_LIST_ID; wr r] ++ rest)
    (mkix (len ca) i) /\ u8b (len ca) = true /\ u32b i = true /\ d_create D POOL_STATE_ID pr mm b = Some r.
Proof.
  unfold client_liquidity. intros B. apply bind_ok in B as (lv & Hlv & B). apply bind_ok in B as ((i & lsv) & Hf & B).
  apply bind_ok in B as (r & Hr & B). apply bind_ok in B as (f & Hpf & B). apply bind_ok in B as (pv & Hpv & B).
  apply bind_ok in B as (i' & Hi & B). apply bind_ok in B as ((g & n) & Hg & B). apply bind_ok in B as ((gp & n') & Hgp & B). injection B as <-.
  apply u32_is in Hi as (-> & Hu). unfold extend_with_calc in Hg, Hgp.
  apply guard_ok in Hg as (L1 & Hg). injection Hg as <- <-. apply guard_ok in Hgp as (L2 & Hgp). injection Hgp as <- <-.
  apply of_option_ok in Hr. do 9 eexists. split; [reflexivity|]. split; [exact (u8_of _ L1)|]. split; [exact Hu|exact Hr].
Qed.

(** A deposit: the signed amount leaves the named account, at least the signed minimum of LP tokens arrives. *)
Theorem C57_add_liquidity D (HD : derive_ok D) E C V w s la lp m a mo ca pa t w' :
  reachable D w -> U64 a -> U64 mo -> pdas_do_not_sign (ti_accs t) -> users_account w lp -> la <> lp ->
  build D V (QAddLiquidity s la lp m a mo ca pa) = Ok t -> run D E C w t = Ok w' ->
  exists ps get, the_pool w = Some ps /\ 0 < get /\ mo <= get /\ traded w w' la m a lp (lp_token_mint ps) get.
Proof.
  cbn [build]. unfold client_add_liquidity. intros HR U1 U2 HN HU Hne B H.
  destruct (built_liquidity _ _ _ _ _ _ _ _ _ _ B) as (i & lpm & f & tp & r & rest & pr & mm & b & -> & Hn & Hi & Hcr).
  pose proof H as Hrun. rewrite run_built in H.
  2:{ cbn [ix_wfb al_lst_value_calc_accs al_lst_index al_lst_amount al_min_lp_out]. rewrite Hn, Hi, (u64b_ok _ U1), (u64b_ok _ U2). reflexivity. }
  destruct (was_trade D HD E C w HR _ _ _ Hrun) as (asked & more & R & P); [|reflexivity|].
  { cbn [ix_wfb al_lst_value_calc_accs al_lst_index al_lst_amount al_min_lp_out]. rewrite Hn, Hi, (u64b_ok _ U1), (u64b_ok _ U2). reflexivity. }
  inversion R. subst asked more0. exists ps.
  assert (lpm = lp_token_mint ps) as -> by (unfold liq_asks in P; clear - P; passed P; reflexivity).
  cbn [built ti_accs] in HN. pose proof (reach_ctl _ _ _ _ _ _ _ HR HN H) as HR'.
  edestruct (C09_add_liquidity D HD E C w _ _ w' HR HN HU Hne H) as (x9 & fee9 & get9 & Hx9 & X1 & X2 & X3 & X4 & X5 & M1 & M2 & M3 & M4 & M5 & _ & (u9 & T1 & T2 & _) & T3).
  cbn [al_lst_amount al_min_lp_out] in *. exists get9. split; [assumption|]. split; [exact X3|]. split; [exact X4|].
  change (lq_user_lst _) with la in *. change (lq_user_lp _) with lp in *. change (lq_mint _) with m in T2. change (lq_lp_mint _) with (lp_token_mint ps) in T3.
  split; [eauto|]. split; [exact T3|]. split; [exact M1|]. split; [exact M2|].
  intros k Hk Hnk. change (lq_reserves _) with r in *. change (lq_fee_acc _) with f in *.
  destruct (in_dec Z.eq_dec k [la; lp; r; f]) as [Hin|Hin]; [|rewrite (M5 k Hin); lia].
  cbn [In] in Hin. destruct Hin as [<-|[<-|[<-|[<-|[]]]]]; lia.
Qed.
(** A withdrawal: the signed amount of LP tokens leaves the named account, at least the signed minimum arrives. *)
Theorem C57_remove_liquidity D (HD : derive_ok D) E C V w s la lp m a mo ca pa t w' :
  reachable D w -> U64 a -> U64 mo -> pdas_do_not_sign (ti_accs t) -> users_account w la -> la <> lp ->
  build D V (QRemoveLiquidity s la lp m a mo ca pa) = Ok t -> run D E C w t = Ok w' ->
  exists ps get, the_pool w = Some ps /\ 0 < get /\ mo <= get /\ traded w w' lp (lp_token_mint ps) a la m get.
Proof.
  cbn [build]. unfold client_remove_liquidity. intros HR U1 U2 HN HU Hne B H.
  destruct (built_liquidity _ _ _ _ _ _ _ _ _ _ B) as (i & lpm & f & tp & r & rest & pr & mm & b & -> & Hn & Hi & Hcr).
  pose proof H as Hrun. rewrite run_built in H.
  2:{ cbn [ix_wfb rl_lst_value_calc_accs rl_lst_index rl_lp_token_amount rl_min_lst_out]. rewrite Hn, Hi, (u64b_ok _ U1), (u64b_ok _ U2). reflexivity. }
  destruct (was_trade D HD E C w HR _ _ _ Hrun) as (asked & more & R & P); [|reflexivity|].
  { cbn [ix_wfb rl_lst_value_calc_accs rl_lst_index rl_lp_token_amount rl_min_lst_out]. rewrite Hn, Hi, (u64b_ok _ U1), (u64b_ok _ U2). reflexivity. }
  inversion R. subst asked more0. exists ps.
  assert (lpm = lp_token_mint ps) as -> by (unfold liq_asks in P; clear - P; passed P; reflexivity).
  cbn [built ti_accs] in HN. pose proof (reach_ctl _ _ _ _ _ _ _ HR HN H) as HR'.
  edestruct (C09_remove_liquidity D HD E C w _ _ w' HR HN HU Hne H) as (get9 & fee9 & X1 & X2 & X3 & X4 & M1 & M2 & M3 & M4 & M5 & _ & (u9 & T1 & T2 & _) & T3).
  cbn [rl_lp_token_amount rl_min_lst_out] in *. exists get9. split; [assumption|]. split; [exact X2|]. split; [exact X3|].
  change (lq_user_lst _) with la in *. change (lq_user_lp _) with lp in *. change (lq_mint _) with m in T3. change (lq_lp_mint _) with (lp_token_mint ps) in T2.
  split; [eauto|]. split; [exact T3|]. split; [exact M1|]. split; [exact M2|].
  intros k Hk Hnk. change (lq_reserves _) with r in *. change (lq_fee_acc _) with f in *.
  destruct (in_dec Z.eq_dec k [la; lp; r; f]) as [Hin|Hin]; [|rewrite (M5 k Hin); lia].
  cbn [In] in Hin. destruct Hin as [<-|[<-|[<-|[<-|[]]]]]; try lia.
  destruct (w_tok w r) as [x|] eqn:X; [destruct (derived_not_users D HD w HR _ _ _ _ _ _ (or_introl eq_refl) Hcr X Hk)|].
  unfold balance at 1. rewrite X. destruct (reachable_inv D HD w' HR') as ((l9 & au9 & _ & _ & _ & _ & _ & (V1 & _) & _) & _).
  unfold balance. destruct (w_tok w' r) as [y|] eqn:Y; [|lia]. destruct (V1 _ _ Y). assumption.
Qed.

(* ------------------------------------------------------------------ *)
(** * Cases: made from the state after five steps of the example history, landing after eight to sixteen *)
Definition late (V w : World) (q : Request) : res World := t <- build D0 V q ;; run D0 E0 C0 w t.
Definition pp_late : key := match the_pool W8 with Some ps => pricing_program ps | None => 0 end.
Definition late_cases : list Request :=
  [QSync MB [ro MB];
   QSwapExactIn USER UA UB MA MB 1 10001 [ro MA] [ro MB] [ro MA; ro MB] pp_late;
   QSwapExactOut USER UA UB MA MB 9000 3001 [ro MA] [ro MB] [ro MA; ro MB] pp_late;
   QAddLiquidity USER UA UL MA 1000 1 [ro MA] [ro MA];
   QRemoveLiquidity USER UB UL MB 1000 1 [ro MB] [ro MB];
   QDisableInput MB; QSetCalculator MB [ro MB] CA; QSetAdmin USER; QSetProtocolFee (Some 5) None; QSetBeneficiary USER;
   QSetPricing CA; QWithdrawFees BF 5; QAddAuthority PAYER USER; QDisablePool ADMIN; QSetRebalanceAuthority USER false;
   QSetRebalanceAuthority USER true].
Lemma late_cases_ok : forallb (fun q => okb (late W5 W8 q)) late_cases = true.
Proof. vm_compute. reflexivity. Qed.
Lemma late_cases_typed : Forall request_typed late_cases.
Proof.
  unfold late_cases. repeat apply Forall_cons; try apply Forall_nil; cbn [request_typed]; unfold U64, U64_MAX; try exact I; try lia.
  split; intros x X; [injection X as <-; lia|discriminate X].
Qed.
(** Each of them is what would be built at that moment. *)
Example C57_case q : In q late_cases ->
  exists t, build D0 W5 q = Ok t /\ (build D0 W8 q = Ok t \/ build D0 W8 (other_capacity q) = Ok t).
Proof.
  intros Hin. pose proof (proj1 (Forall_forall _ _) late_cases_typed _ Hin) as Ht.
  pose proof late_cases_ok as H. rewrite forallb_forall in H. specialize (H _ Hin). apply okb_get in H.
  unfold late in H at 1. apply bind_ok in H as (t & Hb & H). exists t. split; [exact Hb|].
  exact (C57_as_if_built_now D0 D0_ok E0 C0 W5 W8 q t _ W8_reach Ht Hb H).
Qed.
(** Refused: the LST is not (or no longer) listed, the pool is disabled, or the price is worse than the signed limit. *)
Definition admin_of (w : World) : key := match the_pool w with Some ps => admin ps | None => 0 end.
Definition rebalancer_of (w : World) : key := match the_pool w with Some ps => rebalance_authority ps | None => 0 end.
Example C57_refused_case :
  forallb (fun '(V, w, q) => okb (build D0 V q) && negb (okb (late V w q)))
    [(W2, W1, QRemoveLst PAYER MA);
     (W3, W2, QDisableInput MB);
     (W8, W13, QAddLiquidity USER UA UL MA 1000 1 [ro MA] [ro MA]);
     (W15, W13, QDisableInput MB);
     (W8, W8, QSwapExactIn USER UA UB MA MB 10001 10001 [ro MA] [ro MB] [ro MA; ro MB] pp_late)] = true.
Proof. vm_compute. reflexivity. Qed.

(** The trader's theorems apply to these. *)
Definition late_swap : Request := QSwapExactIn USER UA UB MA MB 1 10001 [ro MA] [ro MB] [ro MA; ro MB] pp_late.
Definition nosign (b : res TopIx) : bool := match b with Ok t => pdas_do_not_signb (ti_accs t) | Err _ => false end.
Lemma late_run V w q w' : late V w q = Ok w' -> exists t, build D0 V q = Ok t /\ run D0 E0 C0 w t = Ok w'.
Proof. unfold late. intros H. apply bind_ok in H as (t & Hb & H). eauto. Qed.
Lemma nosign_ok b t : nosign b = true -> b = Ok t -> pdas_do_not_sign (ti_accs t).
Proof. intros H ->. apply pdas_do_not_signb_ok. exact H. Qed.
Definition usersb (w : World) (k : key) : bool :=
  match w_tok w k with Some u => negb (ta_owner u =? POOL_STATE_ID) && negb (ta_owner u =? PROTOCOL_FEE_ID) | None => true end.
Lemma usersb_ok w k : usersb w k = true -> users_account w k.
Proof.
  unfold usersb. intros X u Hu. rewrite Hu in X. apply andb_true_iff in X as (X1 & X2). apply negb_true_iff, Z.eqb_neq in X1, X2. split; assumption.
Qed.
Lemma late_swap_ok : okb (late W5 W8 late_swap) = true.
Proof. vm_compute. reflexivity. Qed.
Lemma late_swap_nosign : nosign (build D0 W5 late_swap) = true.
Proof. vm_compute. reflexivity. Qed.
Lemma late_swap_users : usersb W8 UB = true.
Proof. vm_compute. reflexivity. Qed.
Lemma late_swap_typed : U64 1 /\ U64 10001.
Proof. unfold U64, U64_MAX. lia. Qed.
Example C57_swap_case : exists w' out, late W5 W8 late_swap = Ok w' /\ 1 <= out /\ traded W8 w' UA MA 10001 UB MB out.
Proof.
  pose proof (okb_get _ late_swap_ok) as H. exists (get (late W5 W8 late_swap)). destruct (late_run _ _ _ _ H) as (t & Hb & Hr).
  destruct (C57_swap_exact_in D0 D0_ok E0 C0 W5 W8 USER UA UB MA MB 1 10001 [ro MA] [ro MB] [ro MA; ro MB] pp_late t _ W8_reach
    (proj1 late_swap_typed) (proj2 late_swap_typed) (nosign_ok _ _ late_swap_nosign Hb) (usersb_ok _ _ late_swap_users) Hb Hr) as (out & Ho & Ht).
  exists out. split; [exact H|]. split; [exact Ho|exact Ht].
Qed.

(** Commands of the operator's tool, planned some steps before they are carried out. *)
Definition late_tool : list (World * World * key * key * Cmd) :=
  [(W8, W9, PAYER, ADMIN, CSetAdmin USER);
   (W11, W14, PAYER, ADMIN, CSetBeneficiary USER);
   (W5, W8, PAYER, ADMIN, CWithdrawFees MB SPL_TOKEN_2022_ID None None);
   (W8, W14, PAYER, ADMIN, CWithdrawFees MB SPL_TOKEN_2022_ID (Some BF) (Some 5))].
Lemma late_tool_ok : forallb (fun '(w0, w, p, a, c) => okb (late_command D0 E0 C0 w0 w p a c)) late_tool = true.
Proof. vm_compute. reflexivity. Qed.
Lemma late_tool_reach : Forall (fun x => reachable D0 (fst (fst (fst (fst x)))) /\ reachable D0 (snd (fst (fst (fst x)))) /\ cmd_typed (snd x)) late_tool.
Proof.
  unfold late_tool.
  apply Forall_cons; [split; [exact W8_reach|split; [exact W9_reach|exact I]]|].
  apply Forall_cons; [split; [exact W11_reach|split; [exact W14_reach|exact I]]|].
  apply Forall_cons; [split; [exact W5_reach|split; [exact W8_reach|intros x X; discriminate X]]|].
  apply Forall_cons; [split; [exact W8_reach|split; [exact W14_reach|intros x X; injection X as <-; unfold U64_MAX; lia]]|].
  apply Forall_nil.
Qed.
Example C57_tool_case w0 w p a c : In (w0, w, p, a, c) late_tool ->
  exists w' ch, late_command D0 E0 C0 w0 w p a c = Ok w' /\ command D0 E0 C0 w p a (as_read D0 w0 c) = Ok w' /\
    cmd_rule D0 E0 w p a (as_read D0 w0 c) ch /\ applied w ch w'.
Proof.
  intros Hin. pose proof (proj1 (Forall_forall _ _) late_tool_reach _ Hin) as (H0 & HR & Ht). cbn [fst snd] in H0, HR, Ht.
  pose proof late_tool_ok as H. rewrite forallb_forall in H. specialize (H _ Hin). cbv beta iota in H. apply okb_get in H.
  exists (get (late_command D0 E0 C0 w0 w p a c)).
  destruct (C57_tool_effect D0 D0_ok E0 C0 w0 w p a c _ H0 HR Ht H) as (ch & R & A). exists ch.
  split; [exact H|]. split; [exact (C57_tool_as_if_typed_now D0 D0_ok E0 C0 w0 w p a c _ H0 HR Ht H)|]. split; [exact R|exact A].
Qed.
(** "All" is what the tool read: 500 are sent although 558 are there by then; and with 558 read and 500 there, nothing is.
    Once the administration has been handed over the former admin's commands are refused (not the beneficiary's). *)
Definition W14_handed : World := get (late_command D0 E0 C0 W8 W14 PAYER ADMIN (CSetAdmin USER)).
Example C57_tool_all_case :
  as_read D0 W5 (CWithdrawFees MB SPL_TOKEN_2022_ID None None) = CWithdrawFees MB SPL_TOKEN_2022_ID None (Some 500) /\
  balance W8 (fst (d_find D0 PROTOCOL_FEE_ID SPL_TOKEN_2022_ID MB)) = 558 /\
  forallb (fun '(w0, w, p, a, c) => okb (plan D0 w0 p a c) && negb (okb (late_command D0 E0 C0 w0 w p a c)))
    [(W8, W5, PAYER, ADMIN, CWithdrawFees MB SPL_TOKEN_2022_ID None None);
     (W8, W14_handed, PAYER, ADMIN, CSetProtocolFee (Some 1) None);
     (W8, W14_handed, PAYER, ADMIN, CDisableInput MB);
     (W8, W13, PAYER, ADMIN, CDisableInput MB)] = true /\
  okb (late_command D0 E0 C0 W8 W14_handed PAYER ADMIN (CSetBeneficiary USER)) = true.
Proof. split; [vm_compute; reflexivity|]. split; [vm_compute; reflexivity|]. split; vm_compute; reflexivity. Qed.
