(** Specification vocabulary for histories in which LSTs may also lose value (C56): slashing, a hacked stake pool. *)
From Coq Require Import ZArith List Bool.
From Verif Require Import Base Ratio Calc State Controller Spec Periph PeriphSpec Deploy DeploySpec HistSpec.
Import ListNotations.
Open Scope Z_scope.

(** The LSTs listed in [w], and how many tokens of one the pool's reserves hold. *)
Definition listed (w : World) : list LstState := match the_list w with Some l => l | None => [] end.
Definition reserves_of (D : Derive) (w : World) (ls : LstState) : Z :=
  match d_create D POOL_STATE_ID (w_owner w (ls_mint ls)) (ls_mint ls) (pool_reserves_bump ls) with
  | Some k => balance w k
  | None => 0
  end.
(** By how much the records overstate the reserves, measured by [V]: the sum over the listed LSTs of the recorded value
    beyond what the reserves are worth. *)
Definition overstated (D : Derive) (V : valuation) (w : World) : Z :=
  sumZ (map (fun ls => Z.max 0 (sol_value ls - V (ls_mint ls) (reserves_of D w ls))) (listed w)).
(** What the pool's reserves lose when valuations go from [V] to [V']: the sum over the listed LSTs that lose value. *)
Definition lost (D : Derive) (V V' : valuation) (w : World) : Z :=
  sumZ (map (fun ls => Z.max 0 (V (ls_mint ls) (reserves_of D w ls) - V' (ls_mint ls) (reserves_of D w ls))) (listed w)).

(** [loss_history D M r0 w0 z x r w]: a history as in C44 ([fair_history]), but rates may change in any way at any
    moment, also between the start and the end of a rebalance; [x] adds up what the reserves lose. *)
Inductive loss_history (D : Derive) (M : Z) (r0 : rates) (w0 : World) : Z -> Z -> rates -> World -> Prop :=
| loss_start : rates_ok r0 -> M <= lp_supply w0 -> loss_history D M r0 w0 0 0 r0 w0
| loss_go z x r w z' w' : loss_history D M r0 w0 z x r w -> fair_step D r w z' w' -> M <= lp_supply w' ->
    loss_history D M r0 w0 (z + z') x r w'
| loss_change z x r w r' : loss_history D M r0 w0 z x r w -> rates_ok r' ->
    loss_history D M r0 w0 z (x + lost D (worth_at r) (worth_at r') w) r' w.

(** The same with the shipped programs: stake pools may change in any way. *)
Definition pools_value (cs : pools) : valuation := fun m => worth (cs m).
Inductive loss_shipped (D : Derive) (R : RatioLib) (dp : Deploy) (M : Z) (cs0 : pools) (w0 : World) :
  Z -> Z -> pools -> World -> Prop :=
| lship_start : pools_sound cs0 -> M <= lp_supply w0 -> loss_shipped D R dp M cs0 w0 0 0 cs0 w0
| lship_go z x cs w z' w' : loss_shipped D R dp M cs0 w0 z x cs w -> shipped_step D R dp cs w z' w' ->
    M <= lp_supply w' -> loss_shipped D R dp M cs0 w0 (z + z') x cs w'
| lship_change z x cs w cs' : loss_shipped D R dp M cs0 w0 z x cs w -> pools_sound cs' ->
    loss_shipped D R dp M cs0 w0 z (x + lost D (pools_value cs) (pools_value cs') w) cs' w.
