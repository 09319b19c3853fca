(** The shipped programs together: the controller's environment made of the shipped SOL value calculators
    and pricing programs. *)
From Coq Require Import ZArith List Bool.
From Verif Require Import Base Ratio State Controller Periph.
Import ListNotations.
Open Scope Z_scope.

(** The shipped calculators (libs/sol-value-calculator-programs/{spl,sanctum-spl,sanctum-spl-multi,lido,
    marinade}-calculator-lib/src/lib.rs: program id, pool program, program data, state PDA), the wSOL
    calculator's id, the flat-fee program and the no-fee program's id. *)
Record Deploy := mkDeploy {
  dp_spl : CalcCfg; dp_sanctum_spl : CalcCfg; dp_sanctum_spl_multi : CalcCfg;
  dp_lido : CalcCfg; dp_marinade : CalcCfg;
  dp_wsol : key; dp_flat : FlatCfg; dp_nofee : key }.

(** Which generic-pool calculator a program id is. *)
Definition calc_cfg (dp : Deploy) (prog : key) : option CalcCfg :=
  if prog =? cc_id (dp_spl dp) then Some (dp_spl dp)
  else if prog =? cc_id (dp_sanctum_spl dp) then Some (dp_sanctum_spl dp)
  else if prog =? cc_id (dp_sanctum_spl_multi dp) then Some (dp_sanctum_spl_multi dp)
  else if prog =? cc_id (dp_lido dp) then Some (dp_lido dp)
  else if prog =? cc_id (dp_marinade dp) then Some (dp_marinade dp)
  else None.

(** A read-only, unsigned account of a CPI. *)
Definition cpi_ro (k : key) : Meta := mkMeta k false false.

(** A CPI to a calculator: the LST mint first, then the accounts handed on
    (programs/s-controller/src/cpi/sol_value_calculator.rs:68-117); the return data is read back. *)
Definition calc_answer (R : RatioLib) (dp : Deploy) (pw : PWorld) (other : res (Z * Z)) (prog mint : key)
  (accs : list Meta) (ix : CalcIx) : res (Z * Z) :=
  if prog =? dp_wsol dp then wsol_process (cpi_ro mint :: accs) ix
  else match calc_cfg dp prog with
  | Some cfg => '(_, r) <- calc_process R cfg pw (cpi_ro mint :: accs) ix ;; of_option InvalidData r
  | None => other
  end.
(** A CPI to the pricing program: the mint or mints first, then the accounts handed on
    (programs/s-controller/src/cpi/pricing_program.rs:73-136, 190-253). *)
Definition price_answer (R : RatioLib) (dp : Deploy) (pw : PWorld) (other : res Z) (prog : key)
  (accs : list Meta) (ix : FlatIx) : res Z :=
  if prog =? ff_id (dp_flat dp) then
    '(_, r) <- flat_process R (dp_flat dp) pw accs ix ;; of_option InvalidData r
  else if prog =? dp_nofee dp then nofee_process ix
  else other.

(** The controller's environment when the calculators and pricing programs are the shipped ones, running on
    the chain [pw]; any other program answers as [other] says. *)
Definition deployed_env (R : RatioLib) (dp : Deploy) (pw : PWorld) (other : Env) : Env := {|
  e_lst_to_sol := fun w prog mint accs amt =>
    calc_answer R dp pw (e_lst_to_sol other w prog mint accs amt) prog mint accs (LstToSol amt);
  e_sol_to_lst := fun w prog mint accs amt =>
    calc_answer R dp pw (e_sol_to_lst other w prog mint accs amt) prog mint accs (SolToLst amt);
  e_price_exact_in := fun w prog i o accs amt sol =>
    price_answer R dp pw (e_price_exact_in other w prog i o accs amt sol) prog
      (cpi_ro i :: cpi_ro o :: accs) (PriceExactIn amt sol);
  e_price_exact_out := fun w prog i o accs amt sol =>
    price_answer R dp pw (e_price_exact_out other w prog i o accs amt sol) prog
      (cpi_ro i :: cpi_ro o :: accs) (PriceExactOut amt sol);
  e_price_lp_to_mint := fun w prog m accs amt sol =>
    price_answer R dp pw (e_price_lp_to_mint other w prog m accs amt sol) prog
      (cpi_ro m :: accs) (PriceLpTokensToMint amt sol);
  e_price_lp_to_redeem := fun w prog m accs amt sol =>
    price_answer R dp pw (e_price_lp_to_redeem other w prog m accs amt sol) prog
      (cpi_ro m :: accs) (PriceLpTokensToRedeem amt sol) |}.

(** The programs are different ones, each of its own kind. *)
Definition deploy_ok (dp : Deploy) : Prop :=
  cc_kind (dp_spl dp) = KSpl /\ cc_kind (dp_sanctum_spl dp) = KSpl /\ cc_kind (dp_sanctum_spl_multi dp) = KSpl /\
  (exists m s, cc_kind (dp_lido dp) = KLido m s) /\ (exists m s, cc_kind (dp_marinade dp) = KMarinade m s) /\
  NoDup [cc_id (dp_spl dp); cc_id (dp_sanctum_spl dp); cc_id (dp_sanctum_spl_multi dp); cc_id (dp_lido dp);
         cc_id (dp_marinade dp); dp_wsol dp; ff_id (dp_flat dp); dp_nofee dp].
