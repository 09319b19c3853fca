(** Specification vocabulary for the value of an LP token over a whole history (C44). *)
From Coq Require Import ZArith List Bool.
From Verif Require Import Base Ratio Calc State Controller Spec Periph PeriphSpec Deploy DeploySpec.
Import ListNotations.
Open Scope Z_scope.

(** What each LST is worth: [r m = (n, d)] means n/d lamports per smallest unit of the token [m]. *)
Definition rates := key -> Z * Z.
Definition rates_ok (r : rates) : Prop := forall m, 0 < fst (r m) /\ 0 < snd (r m).
(** No LST loses value from [r] to [r']. *)
Definition rates_rise (r r' : rates) : Prop := forall m, fst (r m) * snd (r' m) <= fst (r' m) * snd (r m).
(** The worth of [x] units of [m], in whole lamports. *)
Definition worth_at (r : rates) (m : key) (x : Z) : Z := x * fst (r m) / snd (r m).

(** More generally a valuation: what [x] units of [m] are worth, in lamports; never negative, more tokens are
    worth no less. *)
Definition valuation := key -> Z -> Z.
Definition val_ok (V : valuation) : Prop :=
  forall m, (forall x, 0 <= x -> 0 <= V m x) /\ (forall x y, x <= y -> V m x <= V m y).
(** No amount of any LST loses value from [V] to [V']. *)
Definition val_rise (V V' : valuation) : Prop := forall m x, 0 <= x -> V m x <= V' m x.

(** [k] is the address of the pool's reserves of the listed LST [ls]. *)
Definition reserves_at (D : Derive) (w : World) (ls : LstState) (k : key) : Prop :=
  d_create D POOL_STATE_ID (w_owner w (ls_mint ls)) (ls_mint ls) (pool_reserves_bump ls) = Some k.
(** No recorded SOL value exceeds what the reserves are worth. *)
Definition covered (D : Derive) (V : valuation) (w : World) : Prop :=
  forall l ls k, the_list w = Some l -> In ls l -> reserves_at D w ls k ->
    sol_value ls <= V (ls_mint ls) (balance w k).

(** The calculators listed in [w] answer at the rates [r]: they value amounts at the floor of x*n/d, and
    the lower estimate of how many tokens [s] lamports buy is at most the least amount worth that. *)
Definition honest (E : Env) (r : rates) (w : World) : Prop :=
  forall l ls w0 accs, the_list w = Some l -> In ls l ->
    (forall x v, valued E w0 (sol_value_calculator ls) (ls_mint ls) accs x v -> v = worth_at r (ls_mint ls) x) /\
    (forall s lo hi, 0 <= s <= U64_MAX -> e_sol_to_lst E w0 (sol_value_calculator ls) (ls_mint ls) accs s = Ok (lo, hi) ->
       (lo - 1) * fst (r (ls_mint ls)) < s * snd (r (ls_mint ls))).

(** LP tokens in circulation. *)
Definition lp_supply (w : World) : Z :=
  match the_pool w with Some ps => supply w (lp_token_mint ps) | None => 0 end.
(** The SOL value behind them: the pool's total; between the start and the end of a rebalance, the total
    the rebalance has to restore. *)
Definition backing (w : World) : Z :=
  match the_record w with Some rec => old_total_sol_value rec | None => total w end.

(** [redeemed_within E r w accs ix z]: if [ix] redeems LP tokens, the part of the withdrawal fee that stays in
    the pool, together with [z] lamports, makes up for paying out whole tokens. The redeemed tokens are
    credited [sol], their share of the pool; the pricing program leaves [after] of it to the user; [taken] is
    that and the protocol's part of the fee; the rest, [sol] - [taken], stays in the pool. (Rounded up, the
    payout is worth less than one token more than [after].) *)
Definition redeemed_within (E : Env) (r : rates) (w : World) (accs : list Meta) (ix : Ix) (z : Z) : Prop :=
  match ix with
  | RemoveLiquidity a =>
      forall w1 after,
        let g := group accs 11 (rl_lst_value_calc_accs a) in
        let gp := skipn (11 + Z.to_nat (rl_lst_value_calc_accs a)) accs in
        let sol := rl_lp_token_amount a * total w1 / supply w (lq_lp_mint accs) in
        let taken := after + bps_share (lp_fee_bps w) (sol - after) in
        revalued E w (rl_lst_index a) (lq_reserves accs) (group_prog g) (lq_mint accs) (group_accs g) w1 ->
        e_price_lp_to_redeem E w1 (group_prog gp) (lq_mint accs) (group_accs gp) (rl_lp_token_amount a) sol = Ok after ->
        taken * fst (r (lq_mint accs)) <= (sol - taken + z) * (after * snd (r (lq_mint accs)))
  | _ => True
  end.

(** One step of a history at the rates [r]: a step of other programs, or a successful call of any controller
    instruction, the calculators being honest; [z]: see above. *)
Inductive fair_step (D : Derive) (r : rates) (w : World) (z : Z) (w' : World) : Prop :=
| fair_external : external_step D w w' -> z = 0 -> fair_step D r w z w'
| fair_call E C accs ix :
    pdas_do_not_sign accs -> process D E C w accs ix = Ok w' -> honest E r w' ->
    0 <= z -> redeemed_within E r w accs ix z -> fair_step D r w z w'.

(** [fair_history D M r0 w0 z r w]: a history from [w0] to [w] in which calculators are honest, the worth of
    the LSTs moves from [r0] to [r] and never falls, and there are never fewer than [M] LP tokens; [z] adds up
    the roundings the withdrawal fees did not make up for. *)
Inductive fair_history (D : Derive) (M : Z) (r0 : rates) (w0 : World) : Z -> rates -> World -> Prop :=
| fair_start : rates_ok r0 -> M <= lp_supply w0 -> fair_history D M r0 w0 0 r0 w0
| fair_go z r w z' w' : fair_history D M r0 w0 z r w -> fair_step D r w z' w' -> M <= lp_supply w' ->
    fair_history D M r0 w0 (z + z') r w'
| fair_accrue z r w r' : fair_history D M r0 w0 z r w -> rates_rise r r' -> rates_ok r' ->
    fair_history D M r0 w0 z r' w.

(* ------------------------------------------------------------------ *)
(** * With the shipped programs *)

(** The stake pool behind each LST, its figures in range and its fees at most 100%. *)
Definition pools := key -> PoolCalc.
Definition fees_sound (c : PoolCalc) : Prop :=
  match c with
  | CSpl p => sp_fee_num p <= sp_fee_denom p
  | CMarinade p => ma_fee_cents p <= 1000000
  | _ => True
  end.
Definition pools_sound (cs : pools) : Prop := forall m, calc_typed (cs m) /\ fees_sound (cs m).
(** No amount of any LST loses value from [cs] to [cs']. *)
Definition pools_rise (cs cs' : pools) : Prop := forall m x, 0 <= x -> worth (cs m) x <= worth (cs' m) x.
(** The calculator answers for [mint] from the stake pool [c], when handed the accounts [accs]. *)
Definition accepts (dp : Deploy) (pw : PWorld) (prog mint : key) (accs : list Meta) (c : PoolCalc) : Prop :=
  (prog = dp_wsol dp /\ c = CWsol) \/
  (prog <> dp_wsol dp /\ exists cfg, calc_cfg dp prog = Some cfg /\ quotable cfg pw (cpi_ro mint :: accs) c).
(** Every LST listed in [w] has a shipped calculator, and the only stake pool that calculator accepts for it is
    the one of [cs]. *)
Definition shipped_listing (dp : Deploy) (pw : PWorld) (cs : pools) (w : World) : Prop :=
  forall l ls, the_list w = Some l -> In ls l ->
    shipped_calc dp (sol_value_calculator ls) /\
    forall accs c, accepts dp pw (sol_value_calculator ls) (ls_mint ls) accs c -> c = cs (ls_mint ls).
(** What burning [lp] of the LP tokens is credited, the reserves [k] of the [i]-th LST having just been measured:
    the proportional share of the total, rounded down. *)
Definition credited_share (cs : pools) (w : World) (i : Z) (m k lpm lp : key) : Z :=
  lp * (total w - recorded w i + worth (cs m) (balance w k)) / supply w lpm.
(** [z] lamports make up for the rounding of [ix]: a deposit loses [merge_loss] at most; a redemption what the
    tokens paid out are worth beyond the credited share, and [split_loss]. *)
Definition shipped_rounding (cs : pools) (w : World) (accs : list Meta) (ix : Ix) (w' : World) (z : Z) : Prop :=
  let c := cs (lq_mint accs) in
  match ix with
  | AddLiquidity _ => merge_loss c <= z
  | RemoveLiquidity a =>
      worth c (balance w (lq_reserves accs) - balance w' (lq_reserves accs)) + split_loss c <=
      credited_share cs w (rl_lst_index a) (lq_mint accs) (lq_reserves accs) (lq_lp_mint accs) (rl_lp_token_amount a) + z
  | _ => True
  end.
(** Deposits are priced by a shipped pricing program (redemptions may be priced by any). *)
Definition shipped_deposit (dp : Deploy) (accs : list Meta) (ix : Ix) : Prop :=
  match ix with
  | AddLiquidity a => shipped_pricing dp (group_prog (skipn (11 + Z.to_nat (al_lst_value_calc_accs a)) accs))
  | _ => True
  end.
(** One step: other programs, or a successful call of any controller instruction with the shipped programs at
    any state [pw] in which the stake pools are as in [cs]. *)
Inductive shipped_step (D : Derive) (R : RatioLib) (dp : Deploy) (cs : pools) (w : World) (z : Z) (w' : World) : Prop :=
| shipped_external : external_step D w w' -> z = 0 -> shipped_step D R dp cs w z w'
| shipped_call pw other C accs ix :
    pdas_do_not_sign accs -> pools_typed pw ->
    process D (deployed_env R dp pw other) C w accs ix = Ok w' ->
    shipped_listing dp pw cs w' -> shipped_deposit dp accs ix ->
    0 <= z -> shipped_rounding cs w accs ix w' z -> shipped_step D R dp cs w z w'.
Inductive shipped_history (D : Derive) (R : RatioLib) (dp : Deploy) (M : Z) (cs0 : pools) (w0 : World) :
  Z -> pools -> World -> Prop :=
| ship_start : pools_sound cs0 -> M <= lp_supply w0 -> shipped_history D R dp M cs0 w0 0 cs0 w0
| ship_go z cs w z' w' : shipped_history D R dp M cs0 w0 z cs w -> shipped_step D R dp cs w z' w' ->
    M <= lp_supply w' -> shipped_history D R dp M cs0 w0 (z + z') cs w'
| ship_accrue z cs w cs' : shipped_history D R dp M cs0 w0 z cs w -> pools_rise cs cs' -> pools_sound cs' ->
    shipped_history D R dp M cs0 w0 z cs' w.

(** The price of one token, rounded up, before fees. *)
Definition token_price (c : PoolCalc) : Z :=
  match c with
  | CWsol => 1
  | CLido p => up (li_sol_balance p) (li_st_sol_supply p)
  | CSpl p => up (sp_total_lamports p) (sp_pool_token_supply p)
  | CMarinade p => up (marinade_total p) (ma_msol_supply p)
  end.
