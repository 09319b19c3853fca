(** Byte-level model of the calls between programs: the data the controller sends to SOL value calculators
    and pricing programs, how each shipped program reads it, and how its answer is read back; and the
    layouts of the accounts the calculators and the flat-fee program keep. *)
From Coq Require Import ZArith List Bool.
From Verif Require Import Base Ratio State Controller Periph Deploy Serde.
Import ListNotations.
Open Scope Z_scope.

(* ------------------------------------------------------------------ *)
(** * What the controller sends *)

(** {LstToSol,SolToLst}IxData::try_to_vec — generated/sol-value-calculator-programs/
    sol_value_calculator_interface/src/instructions.rs:94-133, 222-261 *)
Definition lst_to_sol_ix_data (amount : Z) : bytes := 0 :: le_bytes 8 amount.
Definition sol_to_lst_ix_data (amount : Z) : bytes := 1 :: le_bytes 8 amount.
(** Price*IxData::try_to_vec — generated/pricing-programs/pricing_programs_interface/src/
    instructions.rs:150-190, 323-363, 479-519, 632-672 *)
Definition price_exact_in_ix_data (amount sol_value : Z) : bytes :=
  0 :: le_bytes 8 amount ++ le_bytes 8 sol_value.
Definition price_exact_out_ix_data (amount sol_value : Z) : bytes :=
  1 :: le_bytes 8 amount ++ le_bytes 8 sol_value.
Definition price_lp_tokens_to_mint_ix_data (amount sol_value : Z) : bytes :=
  2 :: le_bytes 8 amount ++ le_bytes 8 sol_value.
Definition price_lp_tokens_to_redeem_ix_data (amount sol_value : Z) : bytes :=
  3 :: le_bytes 8 amount ++ le_bytes 8 sol_value.

(* ------------------------------------------------------------------ *)
(** * How the programs read it *)

(** i16 as two little-endian bytes, two's complement. *)
Definition i16_bytes (x : Z) : bytes := le_bytes 2 (x mod 65536).
Definition read_i16 (b : bytes) : option (Z * bytes) :=
  let? (v, b) := read 2 b in Some (if v <? 32768 then v else v - 65536, b).

(** GenericPoolCalculatorProgramIx::{deserialize,serialize} — generic_pool_calculator_interface/src/
    instructions.rs:20-56; discriminants :177, 386, 584, 780, 969 *)
Definition dec_calc_ix (b : bytes) : option CalcIx :=
  let? (d, b) := read 1 b in
  if d =? 0 then let? (x, _) := read 8 b in Some (LstToSol x)
  else if d =? 1 then let? (x, _) := read 8 b in Some (SolToLst x)
  else if d =? 253 then Some UpdateLastUpgradeSlot
  else if d =? 254 then Some CalcSetManager
  else if d =? 255 then Some CalcInit
  else None.
Definition enc_calc_ix (ix : CalcIx) : bytes :=
  match ix with
  | LstToSol x => 0 :: le_bytes 8 x
  | SolToLst x => 1 :: le_bytes 8 x
  | UpdateLastUpgradeSlot => [253]
  | CalcSetManager => [254]
  | CalcInit => [255]
  end.

(** WsolCalculatorProgramIx::deserialize — wsol_calculator_interface/src/instructions.rs:16-31; :94, 222 *)
Definition dec_wsol_ix (b : bytes) : option CalcIx :=
  let? (d, b) := read 1 b in
  if d =? 0 then let? (x, _) := read 8 b in Some (LstToSol x)
  else if d =? 1 then let? (x, _) := read 8 b in Some (SolToLst x)
  else None.

(** borsh of the Price*IxArgs structs: amount, then sol_value. *)
Definition dec_price (mkix : Z -> Z -> FlatIx) (b : bytes) : option FlatIx :=
  let? (x, b) := read 8 b in let? (y, _) := read 8 b in Some (mkix x y).
Definition dec_fees (mkix : Z -> Z -> FlatIx) (b : bytes) : option FlatIx :=
  let? (x, b) := read_i16 b in let? (y, _) := read_i16 b in Some (mkix x y).

(** PricingProgramsProgramIx::deserialize — pricing_programs_interface/src/instructions.rs:18-41 *)
Definition dec_pricing_ix (b : bytes) : option FlatIx :=
  let? (d, b) := read 1 b in
  if d =? 0 then dec_price PriceExactIn b
  else if d =? 1 then dec_price PriceExactOut b
  else if d =? 2 then dec_price PriceLpTokensToMint b
  else if d =? 3 then dec_price PriceLpTokensToRedeem b
  else None.

(** FlatFeeProgramIx::{deserialize,serialize} — generated/pricing-programs/flat_fee_interface/src/
    instructions.rs:25-96; discriminants :206, 407, 565, 732, 902, 1114, 1351, 1581, 1792, 1983 *)
Definition dec_flat_ix (b : bytes) : option FlatIx :=
  let? (d, b) := read 1 b in
  if d =? 0 then dec_price PriceExactIn b
  else if d =? 1 then dec_price PriceExactOut b
  else if d =? 2 then dec_price PriceLpTokensToMint b
  else if d =? 3 then dec_price PriceLpTokensToRedeem b
  else if d =? 250 then let? (x, _) := read 2 b in Some (SetLpWithdrawalFee x)
  else if d =? 251 then dec_fees SetLstFee b
  else if d =? 252 then Some FlatRemoveLst
  else if d =? 253 then dec_fees FlatAddLst b
  else if d =? 254 then Some FlatSetManager
  else if d =? 255 then Some FlatInitialize
  else None.
Definition enc_flat_ix (ix : FlatIx) : bytes :=
  match ix with
  | PriceExactIn x y => 0 :: le_bytes 8 x ++ le_bytes 8 y
  | PriceExactOut x y => 1 :: le_bytes 8 x ++ le_bytes 8 y
  | PriceLpTokensToMint x y => 2 :: le_bytes 8 x ++ le_bytes 8 y
  | PriceLpTokensToRedeem x y => 3 :: le_bytes 8 x ++ le_bytes 8 y
  | SetLpWithdrawalFee x => 250 :: le_bytes 2 x
  | SetLstFee x y => 251 :: i16_bytes x ++ i16_bytes y
  | FlatRemoveLst => [252]
  | FlatAddLst x y => 253 :: i16_bytes x ++ i16_bytes y
  | FlatSetManager => [254]
  | FlatInitialize => [255]
  end.

(* ------------------------------------------------------------------ *)
(** * Return data *)

(** U64ValueRange as borsh: min, then max (sol-value-calculator-onchain/src/lib.rs:26-31); the price as
    eight bytes (flat-fee/src/processor/price_exact_in.rs:35-36, price_exact_out.rs:36-37,
    price_lp_tokens_to_mint.rs:12-13, price_lp_tokens_to_redeem.rs:25-26, no-fee-pricing-program/src/
    lib.rs:36-37). Nothing set is no bytes. *)
Definition range_bytes (r : option (Z * Z)) : bytes :=
  match r with Some (lo, hi) => le_bytes 8 lo ++ le_bytes 8 hi | None => [] end.
Definition price_bytes (r : option Z) : bytes :=
  match r with Some x => le_bytes 8 x | None => [] end.
(** sanctum_misc_utils::get_borsh_return_data (not in /repo) as used in
    cpi/sol_value_calculator.rs:78-84 and cpi/pricing_program.rs:113-118, 223-228. *)
Definition range_back (b : bytes) : res (Z * Z) :=
  of_option (Ctl FaultySolValueCalculator) (
    let? (lo, b) := read 8 b in let? (hi, _) := read 8 b in Some (lo, hi)).
Definition price_back (b : bytes) : res Z :=
  of_option (Ctl FaultyPricingProgram) (let? (x, _) := read 8 b in Some x).

(* ------------------------------------------------------------------ *)
(** * Entry points *)

(** process_instruction of each generic-pool calculator — {lido,marinade,spl,sanctum-spl,
    sanctum-spl-multi}-calculator/src/entrypoint.rs:15-38; the chain afterwards and the return data *)
Definition calc_entry (R : RatioLib) (cfg : CalcCfg) (pw : PWorld) (program_id : key) (accs : list Meta)
  (data : bytes) : res (PWorld * bytes) :=
  guard (program_id =? cc_id cfg) IncorrectProgramId (
  ix <- of_option InvalidData (dec_calc_ix data) ;;
  '(pw', r) <- calc_process R cfg pw accs ix ;;
  Ok (pw', range_bytes r)).
(** wsol-calculator/src/lib.rs:18-44: accounts first, data afterwards *)
Definition wsol_entry (id : key) (program_id : key) (accs : list Meta) (data : bytes) : res bytes :=
  guard (program_id =? id) IncorrectProgramId (
  match accs with
  | lst_mint :: _ =>
    guard (mk lst_mint =? WSOL_MINT) WrongAccount (
    ix <- of_option InvalidData (dec_wsol_ix data) ;;
    r <- wsol_process accs ix ;; Ok (range_bytes (Some r)))
  | [] => Err NotEnoughAccountKeys
  end).
(** flat-fee/src/entrypoint.rs:12-40 *)
Definition flat_entry (R : RatioLib) (F : FlatCfg) (pw : PWorld) (program_id : key) (accs : list Meta)
  (data : bytes) : res (PWorld * bytes) :=
  guard (program_id =? ff_id F) IncorrectProgramId (
  ix <- of_option InvalidData (dec_flat_ix data) ;;
  '(pw', r) <- flat_process R F pw accs ix ;;
  Ok (pw', price_bytes r)).
(** no-fee-pricing-program/src/lib.rs:16-39: the program id is not checked *)
Definition nofee_entry (data : bytes) : res bytes :=
  ix <- of_option InvalidData (dec_pricing_ix data) ;;
  r <- nofee_process ix ;; Ok (price_bytes (Some r)).

(* ------------------------------------------------------------------ *)
(** * The calls *)

(** SolValueCalculatorCpi::invoke_interface_ix — cpi/sol_value_calculator.rs:78-117: the LST mint, then the
    accounts handed on; a program that is not a shipped one answers [other]. *)
Definition calc_call (R : RatioLib) (dp : Deploy) (pw : PWorld) (other : res (Z * Z)) (prog mint : key)
  (accs : list Meta) (data : bytes) : res (Z * Z) :=
  if prog =? dp_wsol dp then ret <- wsol_entry (dp_wsol dp) prog (cpi_ro mint :: accs) data ;; range_back ret
  else match calc_cfg dp prog with
  | Some cfg => '(_, ret) <- calc_entry R cfg pw prog (cpi_ro mint :: accs) data ;; range_back ret
  | None => other
  end.
(** PricingProgramPrice{Lp,Swap}Cpi::invoke_interface_ix — cpi/pricing_program.rs:113-136, 223-253 *)
Definition price_call (R : RatioLib) (dp : Deploy) (pw : PWorld) (other : res Z) (prog : key)
  (accs : list Meta) (data : bytes) : res Z :=
  if prog =? ff_id (dp_flat dp) then '(_, ret) <- flat_entry R (dp_flat dp) pw prog accs data ;; price_back ret
  else if prog =? dp_nofee dp then ret <- nofee_entry data ;; price_back ret
  else other.

(** The controller's environment with every call going over bytes — cpi/sol_value_calculator.rs:68-76,
    103-117; cpi/pricing_program.rs:73-111, 190-221. *)
Definition wire_env (R : RatioLib) (dp : Deploy) (pw : PWorld) (other : Env) : Env := {|
  e_lst_to_sol := fun w prog mint accs amt =>
    calc_call R dp pw (e_lst_to_sol other w prog mint accs amt) prog mint accs (lst_to_sol_ix_data amt);
  e_sol_to_lst := fun w prog mint accs amt =>
    calc_call R dp pw (e_sol_to_lst other w prog mint accs amt) prog mint accs (sol_to_lst_ix_data amt);
  e_price_exact_in := fun w prog i o accs amt sol =>
    price_call R dp pw (e_price_exact_in other w prog i o accs amt sol) prog
      (cpi_ro i :: cpi_ro o :: accs) (price_exact_in_ix_data amt sol);
  e_price_exact_out := fun w prog i o accs amt sol =>
    price_call R dp pw (e_price_exact_out other w prog i o accs amt sol) prog
      (cpi_ro i :: cpi_ro o :: accs) (price_exact_out_ix_data amt sol);
  e_price_lp_to_mint := fun w prog m accs amt sol =>
    price_call R dp pw (e_price_lp_to_mint other w prog m accs amt sol) prog
      (cpi_ro m :: accs) (price_lp_tokens_to_mint_ix_data amt sol);
  e_price_lp_to_redeem := fun w prog m accs amt sol =>
    price_call R dp pw (e_price_lp_to_redeem other w prog m accs amt sol) prog
      (cpi_ro m :: accs) (price_lp_tokens_to_redeem_ix_data amt sol) |}.

(* ------------------------------------------------------------------ *)
(** * Account layouts (bytemuck Pod, #[repr(C)]; the length must be the struct's size) *)

(** generic_pool_calculator_interface/src/typedefs.rs:4-10; generic-pool-calculator-lib/src/utils.rs:48-61 *)
Definition calc_state_layout : list nat := [32; 8]%nat.
Definition enc_calc_state (manager : key) (last_upgrade_slot : Z) : bytes :=
  enc_fields calc_state_layout [manager; last_upgrade_slot].
Definition dec_calc_state (b : bytes) : option (key * Z) :=
  if Nat.eqb (length b) (width calc_state_layout) then
    match dec_fields calc_state_layout b with [m; s] => Some (m, s) | _ => None end
  else None.
(** flat_fee_interface/src/typedefs.rs:4-10; flat-fee-lib/src/utils.rs:5-13 *)
Definition flat_state_layout : list nat := [32; 2]%nat.
Definition enc_flat_state (manager : key) (lp_withdrawal_fee_bps : Z) : bytes :=
  enc_fields flat_state_layout [manager; lp_withdrawal_fee_bps].
Definition dec_flat_state (b : bytes) : option (key * Z) :=
  if Nat.eqb (length b) (width flat_state_layout) then
    match dec_fields flat_state_layout b with [m; f] => Some (m, f) | _ => None end
  else None.
(** flat_fee_interface/src/typedefs.rs:11-19 (bump, padding, two i16); flat-fee-lib/src/utils.rs:15-21 *)
Definition fee_acc_layout : list nat := [1; 1; 2; 2]%nat.
Definition i16_of (v : Z) : Z := if v <? 32768 then v else v - 65536.
Definition enc_fee_acc (bump padding input_fee_bps output_fee_bps : Z) : bytes :=
  enc_fields fee_acc_layout [bump; padding; input_fee_bps mod 65536; output_fee_bps mod 65536].
Definition dec_fee_acc (b : bytes) : option (Z * Z * Z) :=
  if Nat.eqb (length b) (width fee_acc_layout) then
    match dec_fields fee_acc_layout b with
    | [bump; _; i; o] => Some (bump, i16_of i, i16_of o)
    | _ => None
    end
  else None.
