(** Specification vocabulary for a pool whose calculators and pricing program are the shipped ones. *)
From Coq Require Import ZArith List Bool.
From Verif Require Import Base Ratio State Controller Spec Periph PeriphSpec Deploy.
Import ListNotations.
Open Scope Z_scope.

(** The program is one of the six shipped calculators; one of the two shipped pricing programs. *)
Definition shipped_calc (dp : Deploy) (prog : key) : Prop := prog = dp_wsol dp \/ calc_cfg dp prog <> None.
Definition shipped_pricing (dp : Deploy) (prog : key) : Prop := prog = ff_id (dp_flat dp) \/ prog = dp_nofee dp.

(** The stake pool a shipped calculator values [mint] by, when handed the accounts [accs]. *)
Definition shipped_pool (dp : Deploy) (pw : PWorld) (prog mint : key) (accs : list Meta) : option PoolCalc :=
  if prog =? dp_wsol dp then Some CWsol
  else match calc_cfg dp prog with
  | Some cfg => pool_of cfg pw (cpi_ro mint :: accs)
  | None => None
  end.

(** Lamports lost to rounding when two amounts are valued together instead of separately: none, except
    one at Marinade, whose fee is rounded down. *)
Definition merge_loss (c : PoolCalc) : Z := match c with CMarinade _ => 1 | _ => 0 end.
(** Lamports lost to rounding when an amount is valued in two parts instead of as one: one for the floor;
    for an SPL pool with a withdrawal fee, also the value of one more token of fee; none for wSOL. *)
Definition split_loss (c : PoolCalc) : Z :=
  match c with
  | CWsol => 0
  | CLido _ | CMarinade _ => 1
  | CSpl p => if sp_fee_num p =? 0 then 1 else 1 + up (sp_total_lamports p) (sp_pool_token_supply p)
  end.

(** What the shipped pricing programs charge of [v] lamports when LP tokens are redeemed. *)
Definition redeem_fee (dp : Deploy) (pw : PWorld) (prog : key) (v : Z) : Z :=
  if prog =? ff_id (dp_flat dp) then
    match flat_lp_fee (dp_flat dp) pw with Some f => up (v * f) 10000 | None => 0 end
  else 0.
