(** The programs around the controller: the shipped SOL value calculators (wSOL, Lido, Marinade and the
    three SPL stake pool calculators) and the pricing programs (flat fee, no fee), with their admin
    instructions. *)
From Coq Require Import ZArith List Bool.
From Verif Require Import Base Ratio State Controller.
Import ListNotations.
Open Scope Z_scope.

(* ------------------------------------------------------------------ *)
(** * Accounts these programs read *)

(** spl-calculator-lib/src/calc.rs:11-17 (SplStakePoolCalc), with the two further fields the checks use
    (account_resolvers.rs:52-61 account_type, :102 pool_mint) *)
Record SplPool := mkSpl {
  sp_is_stake_pool : bool; sp_pool_mint : key;
  sp_last_update_epoch : Z; sp_total_lamports : Z; sp_pool_token_supply : Z;
  sp_fee_num : Z; sp_fee_denom : Z }.
(** lido-calculator-lib/src/calc.rs:9-13 *)
Record LidoPool := mkLido {
  li_is_lido : bool; li_computed_in_epoch : Z; li_st_sol_supply : Z; li_sol_balance : Z }.
(** marinade-calculator-lib/src/calc.rs:14-24; [ma_discm_ok]: the first 8 bytes are the state
    discriminant (marinade-calculator lst_sol_common.rs:13,35) *)
Record MarinadePool := mkMarinade {
  ma_discm_ok : bool; ma_paused : bool;
  ma_delayed_unstake_cooling_down : Z; ma_emergency_cooling_down : Z;
  ma_total_active_balance : Z; ma_available_reserve_balance : Z;
  ma_circulating_ticket_balance : Z; ma_msol_supply : Z;
  ma_withdraw_enabled : bool; ma_fee_cents : Z }.

(** What an account's data is. Simplification: data of one kind never parses as another kind. *)
Inductive PData :=
| PEmpty                                  (* no account, or no data *)
| PProgram (programdata : key)            (* UpgradeableLoaderState::Program *)
| PProgData (slot : Z)                    (* UpgradeableLoaderState::ProgramData *)
| PCalc (manager : key) (last_upgrade_slot : Z) (* generic_pool_calculator_interface CalculatorState *)
| PSpl (p : SplPool)
| PLido (p : LidoPool)
| PMarinade (p : MarinadePool)
| PFlatState (manager : key) (lp_withdrawal_fee_bps : Z) (* flat_fee_interface accounts.rs:7-10 *)
| PFlatFee (bump input_fee_bps output_fee_bps : Z)  (* accounts.rs:14-19, padding left out *)
| PMint                                   (* an initialised token mint *)
| POther.

Record PAcc := mkPAcc { pa_owner : key; pa_data : PData }.
Definition no_account : PAcc := mkPAcc SYSTEM_PROGRAM_ID PEmpty.

(** The chain as these programs see it: accounts, and the clock's epoch. *)
Record PWorld := mkPW { pw_acc : key -> PAcc; pw_epoch : Z }.
Definition pdata (pw : PWorld) (k : key) : PData := pa_data (pw_acc pw k).
Definition powner (pw : PWorld) (k : key) : key := pa_owner (pw_acc pw k).
Definition put_acc (pw : PWorld) (k : key) (a : PAcc) : PWorld :=
  mkPW (upd (pw_acc pw) k a) (pw_epoch pw).

(** The runtime refuses data changes to accounts the running program does not own. (Simplification:
    writing back identical bytes to a foreign account, which the runtime lets pass, is an error here.) *)
Definition write_data (prog : key) (pw : PWorld) (k : key) (d : PData) : res PWorld :=
  guard (powner pw k =? prog) SystemErr (Ok (put_acc pw k (mkPAcc prog d))).

(** sanctum_system_program_lib::init_rent_exempt_account_invoke_signed (not in /repo): creates the
    account with zeroed data for the program; fails if the account is not an empty system account. *)
Definition init_account (prog : key) (pw : PWorld) (k : key) (d : PData) : res PWorld :=
  guard (powner pw k =? SYSTEM_PROGRAM_ID) SystemErr (
  match pdata pw k with
  | PEmpty => Ok (put_acc pw k (mkPAcc prog d))
  | _ => Err SystemErr
  end).

(* ------------------------------------------------------------------ *)
(** * Value arithmetic *)

(** sanctum_token_ratio U64ValueRange::try_from_min_max (not in /repo): min <= max required *)
Definition try_from_min_max (lo hi : Z) : res (Z * Z) := guard (lo <=? hi) RatioMathErr (Ok (lo, hi)).
Definition single (x : Z) : Z * Z := (x, x).

(** spl-calculator-lib/src/calc.rs:90-95 *)
Definition spl_lst_to_sol (p : SplPool) (pool_tokens : Z) : res (Z * Z) :=
  pool_tokens_burnt <- ceil_fee_after (sp_fee_num p) (sp_fee_denom p) pool_tokens ;;
  withdraw_lamports <- floor_apply (sp_total_lamports p) (sp_pool_token_supply p) pool_tokens_burnt ;;
  Ok (single withdraw_lamports).

(** spl-calculator-lib/src/calc.rs:97-103 *)
Definition spl_sol_to_lst (R : RatioLib) (p : SplPool) (withdraw_lamports : Z) : res (Z * Z) :=
  r <- rl_reverse R (sp_total_lamports p) (sp_pool_token_supply p) withdraw_lamports ;;
  guard (sp_fee_num p <=? sp_fee_denom p) RatioMathErr (
  a <- rl_ceil_fee_reverse R (sp_fee_num p) (sp_fee_denom p) (fst r) ;;
  b <- rl_ceil_fee_reverse R (sp_fee_num p) (sp_fee_denom p) (snd r) ;;
  try_from_min_max (fst a) (snd b)).

(** lido-calculator-lib/src/calc.rs:84-88 *)
Definition lido_lst_to_sol (p : LidoPool) (pool_tokens : Z) : res (Z * Z) :=
  v <- floor_apply (li_sol_balance p) (li_st_sol_supply p) pool_tokens ;; Ok (single v).
(** lido-calculator-lib/src/calc.rs:90-94 *)
Definition lido_sol_to_lst (R : RatioLib) (p : LidoPool) (withdraw_lamports : Z) : res (Z * Z) :=
  rl_reverse R (li_sol_balance p) (li_st_sol_supply p) withdraw_lamports.

(** marinade-calculator-lib/src/calc.rs:10 *)
Definition MAX_BP_CENTS : Z := 1000000.
(** marinade-calculator-lib/src/calc.rs:85-102 *)
Definition total_virtual_staked_lamports (p : MarinadePool) : res Z :=
  tcd <- checked_add RatioMathErr (ma_delayed_unstake_cooling_down p) (ma_emergency_cooling_down p) ;;
  x <- checked_add RatioMathErr (ma_total_active_balance p) tcd ;;
  y <- checked_add RatioMathErr x (ma_available_reserve_balance p) ;;
  Ok (sat_sub y (ma_circulating_ticket_balance p)).
(** marinade-calculator-lib/src/calc.rs:120-127 *)
Definition marinade_lst_to_sol (p : MarinadePool) (msol_amount : Z) : res (Z * Z) :=
  total <- total_virtual_staked_lamports p ;;
  v <- floor_apply total (ma_msol_supply p) msol_amount ;;
  lamports_for_user <- floor_fee_after (ma_fee_cents p) MAX_BP_CENTS v ;;
  Ok (single lamports_for_user).
(** marinade-calculator-lib/src/calc.rs:129-137 *)
Definition marinade_sol_to_lst (R : RatioLib) (p : MarinadePool) (lamports_for_user : Z)
  : res (Z * Z) :=
  guard (ma_fee_cents p <=? MAX_BP_CENTS) RatioMathErr (
  r <- rl_floor_fee_reverse R (ma_fee_cents p) MAX_BP_CENTS lamports_for_user ;;
  total <- total_virtual_staked_lamports p ;;
  a <- rl_reverse R total (ma_msol_supply p) (fst r) ;;
  b <- rl_reverse R total (ma_msol_supply p) (snd r) ;;
  try_from_min_max (fst a) (snd b)).

(** wsol-calculator-lib/src/lib.rs:14-22 *)
Definition wsol_lst_to_sol (amount : Z) : res (Z * Z) := Ok (single amount).
Definition wsol_sol_to_lst (amount : Z) : res (Z * Z) := Ok (single amount).

(** The implementors of trait SolValueCalculator (sol-value-calculator-lib/src/lib.rs:4-7). *)
Inductive PoolCalc := CWsol | CSpl (p : SplPool) | CLido (p : LidoPool) | CMarinade (p : MarinadePool).
Definition calc_lst_to_sol (c : PoolCalc) (amount : Z) : res (Z * Z) :=
  match c with
  | CWsol => wsol_lst_to_sol amount
  | CSpl p => spl_lst_to_sol p amount
  | CLido p => lido_lst_to_sol p amount
  | CMarinade p => marinade_lst_to_sol p amount
  end.
Definition calc_sol_to_lst (R : RatioLib) (c : PoolCalc) (amount : Z) : res (Z * Z) :=
  match c with
  | CWsol => wsol_sol_to_lst amount
  | CSpl p => spl_sol_to_lst R p amount
  | CLido p => lido_sol_to_lst R p amount
  | CMarinade p => marinade_sol_to_lst R p amount
  end.

(* ------------------------------------------------------------------ *)
(** * The calculator programs *)

(** generated wsol mint and the shipped programs' well-known keys, kept symbolic and distinct. *)
Definition WSOL_MINT : key := 20.

Inductive PoolKind :=
| KSpl
| KLido (mint state : key)      (* lido-calculator-lib/src/lib.rs:40-44 *)
| KMarinade (mint state : key). (* marinade-calculator-lib/src/lib.rs:40-44 *)

(** trait GenericPoolSolValCalc — generic-pool-calculator-lib/src/lib.rs:24-39, and the
    initial_manager each program passes to init *)
Record CalcCfg := mkCfg {
  cc_id : key; cc_pool_program : key; cc_progdata : key; cc_state : key; cc_manager0 : key;
  cc_kind : PoolKind }.

(** generic_pool_calculator_interface instructions.rs: discriminants 0, 1, 253, 254, 255 *)
Inductive CalcIx :=
| LstToSol (amount : Z) | SolToLst (amount : Z)
| UpdateLastUpgradeSlot | CalcSetManager | CalcInit.

(** generic-pool-calculator-lib/src/utils.rs:8-22 *)
Definition read_programdata_addr (pw : PWorld) (k : key) : res key :=
  match pdata pw k with PProgram a => Ok a | _ => Err (Prog InvalidStakePoolProgramData) end.
(** utils.rs:27-45 (the upgrade authority is not used by callers) *)
Definition read_stake_pool_progdata_meta (pw : PWorld) (k : key) : res Z :=
  match pdata pw k with PProgData slot => Ok slot | _ => Err (Prog InvalidStakePoolProgramData) end.
(** utils.rs:48-61 *)
Definition try_calculator_state (pw : PWorld) (k : key) : res (key * Z) :=
  match pdata pw k with PCalc m s => Ok (m, s) | _ => Err (Prog InvalidCalculatorStateData) end.
(** utils.rs:69-83 *)
Definition verify_no_stake_pool_prog_upgrade (pw : PWorld) (progdata state : key) : res unit :=
  slot <- read_stake_pool_progdata_meta pw progdata ;;
  st <- try_calculator_state pw state ;;
  guard (snd st =? slot) (Prog UnexpectedProgramUpgrade) (Ok tt).

(** spl-calculator-lib/src/account_resolvers.rs:39-61 *)
Definition deserialize_stake_pool_check_program_owner (pw : PWorld) (pool_state prog : key)
  : res SplPool :=
  guard (powner pw pool_state =? prog) (Prog InvalidStakePoolProgramData) (
  match pdata pw pool_state with
  | PSpl p => guard (sp_is_stake_pool p) (Prog InvalidStakePoolProgramData) (Ok p)
  | _ => Err (Prog InvalidStakePoolProgramData)
  end).

(** The three programs' processor/lst_sol_common.rs verify_lst_sol_common:
    spl-calculator :13-37 (sanctum-spl, sanctum-spl-multi the same with their own pool program),
    lido-calculator :15-39, marinade-calculator :17-43;
    account_resolvers.rs:92-111 (resolve_for_stake_pool_program),
    generic-pool-calculator-lib/src/account_resolvers/lst_sol_common.rs:16-29, 43-51. *)
Definition verify_lst_sol_common (cfg : CalcCfg) (pw : PWorld) (accs : list Meta) : res PoolCalc :=
  match accs with
  | lst_mint :: state :: pool_state :: pool_program :: pool_program_data :: _ =>
    let actual := [lst_mint; state; pool_state; pool_program; pool_program_data] in
    match cc_kind cfg with
    | KSpl =>
        guard (mk pool_program =? cc_pool_program cfg) (Prog WrongPoolProgram) (
        stake_pool <- deserialize_stake_pool_check_program_owner pw (mk pool_state)
                        (cc_pool_program cfg) ;;
        progdata <- read_programdata_addr pw (mk pool_program) ;;
        guard (keys_match actual [sp_pool_mint stake_pool; cc_state cfg; mk pool_state;
                                  cc_pool_program cfg; progdata]) WrongAccount (
        _ <- verify_no_stake_pool_prog_upgrade pw (mk pool_program_data) (mk state) ;;
        guard (sp_last_update_epoch stake_pool =? pw_epoch pw) (Prog PoolNotUpdated)
          (Ok (CSpl stake_pool))))
    | KLido mint pstate =>
        guard (keys_match actual [mint; cc_state cfg; pstate; cc_pool_program cfg; cc_progdata cfg])
          WrongAccount (
        _ <- verify_no_stake_pool_prog_upgrade pw (mk pool_program_data) (mk state) ;;
        match pdata pw (mk pool_state) with
        | PLido p =>
            guard (li_is_lido p) InvalidData (
            guard (li_computed_in_epoch p =? pw_epoch pw) (Prog ExchangeRateNotUpdatedInThisEpoch)
              (Ok (CLido p)))
        | _ => Err InvalidData
        end)
    | KMarinade mint pstate =>
        guard (keys_match actual [mint; cc_state cfg; pstate; cc_pool_program cfg; cc_progdata cfg])
          WrongAccount (
        _ <- verify_no_stake_pool_prog_upgrade pw (mk pool_program_data) (mk state) ;;
        match pdata pw (mk pool_state) with
        | PMarinade p =>
            guard (ma_discm_ok p) InvalidData (
            guard (negb (ma_paused p)) (Prog MarinadePaused) (
            guard (ma_withdraw_enabled p) (Prog MarinadeStakeWithdrawDisabled) (Ok (CMarinade p))))
        | _ => Err InvalidData
        end)
    end
  | _ => Err NotEnoughAccountKeys
  end.

(** generic-pool-calculator-onchain/src/processor/update_last_upgrade_slot.rs:17-49,
    generic-pool-calculator-lib/src/account_resolvers/update_last_upgrade_slot.rs:22-43 *)
Definition process_update_last_upgrade_slot (cfg : CalcCfg) (pw : PWorld) (accs : list Meta)
  : res PWorld :=
  match accs with
  | manager :: state :: pool_program :: pool_program_data :: _ =>
    guard (mk state =? cc_state cfg) (Prog WrongCalculatorStatePda) (
    guard (mk pool_program =? cc_pool_program cfg) (Prog WrongPoolProgram) (
    st <- try_calculator_state pw (mk state) ;;
    progdata <- read_programdata_addr pw (mk pool_program) ;;
    verify_keys_privs [manager; state; pool_program; pool_program_data]
      [fst st; cc_state cfg; cc_pool_program cfg; progdata] [state] [manager] (
    slot <- read_stake_pool_progdata_meta pw (mk pool_program_data) ;;
    write_data (cc_id cfg) pw (mk state) (PCalc (fst st) slot))))
  | _ => Err NotEnoughAccountKeys
  end.

(** generic-pool-calculator-onchain/src/processor/set_manager.rs:14-42,
    generic-pool-calculator-lib/src/account_resolvers/set_manager.rs:13-26 *)
Definition process_calc_set_manager (cfg : CalcCfg) (pw : PWorld) (accs : list Meta) : res PWorld :=
  match accs with
  | manager :: new_manager :: state :: _ =>
    guard (mk state =? cc_state cfg) (Prog WrongCalculatorStatePda) (
    st <- try_calculator_state pw (mk state) ;;
    verify_keys_privs [manager; new_manager; state] [fst st; mk new_manager; cc_state cfg]
      [state] [manager] (
    write_data (cc_id cfg) pw (mk state) (PCalc (mk new_manager) (snd st))))
  | _ => Err NotEnoughAccountKeys
  end.

(** generic-pool-calculator-onchain/src/processor/init.rs:18-60,
    generic-pool-calculator-lib/src/account_resolvers/init.rs:11-17 *)
Definition process_calc_init (cfg : CalcCfg) (pw : PWorld) (accs : list Meta) : res PWorld :=
  match accs with
  | payer :: state :: system_program :: _ =>
    verify_keys_privs [payer; state; system_program] [mk payer; cc_state cfg; SYSTEM_PROGRAM_ID]
      [payer; state] [payer] (
    init_account (cc_id cfg) pw (mk state) (PCalc (cc_manager0 cfg) 0))
  | _ => Err NotEnoughAccountKeys
  end.

(** entrypoint.rs:15-36 of each generic-pool calculator; sol-value-calculator-onchain/src/lib.rs:9-31.
    The result is the new chain state and the return data, if set. *)
Definition calc_process (R : RatioLib) (cfg : CalcCfg) (pw : PWorld) (accs : list Meta) (ix : CalcIx)
  : res (PWorld * option (Z * Z)) :=
  match ix with
  | LstToSol amount =>
      c <- verify_lst_sol_common cfg pw accs ;; v <- calc_lst_to_sol c amount ;; Ok (pw, Some v)
  | SolToLst amount =>
      c <- verify_lst_sol_common cfg pw accs ;; v <- calc_sol_to_lst R c amount ;; Ok (pw, Some v)
  | UpdateLastUpgradeSlot => pw' <- process_update_last_upgrade_slot cfg pw accs ;; Ok (pw', None)
  | CalcSetManager => pw' <- process_calc_set_manager cfg pw accs ;; Ok (pw', None)
  | CalcInit => pw' <- process_calc_init cfg pw accs ;; Ok (pw', None)
  end.

(** wsol-calculator/src/lib.rs:18-44: the accounts are checked before the instruction is read; only
    LstToSol and SolToLst exist. *)
Definition wsol_process (accs : list Meta) (ix : CalcIx) : res (Z * Z) :=
  match accs with
  | lst_mint :: _ =>
    guard (mk lst_mint =? WSOL_MINT) WrongAccount (
    match ix with
    | LstToSol amount => wsol_lst_to_sol amount
    | SolToLst amount => wsol_sol_to_lst amount
    | _ => Err InvalidData
    end)
  | _ => Err NotEnoughAccountKeys
  end.

(* ------------------------------------------------------------------ *)
(** * The flat-fee pricing program *)

(** Derivation of its PDAs: [fd_create mint bump] / [fd_find mint] with seeds ["fee", mint]
    (flat-fee-lib/src/pda.rs:39-69); the state PDA (lib.rs:21-24). *)
Record FlatCfg := mkFlat {
  ff_id : key; ff_state : key; ff_manager0 : key;
  fd_create : key -> Z -> option key; fd_find : key -> key * Z }.

Inductive FlatIx :=
| PriceExactIn (amount sol_value : Z) | PriceExactOut (amount sol_value : Z)
| PriceLpTokensToMint (amount sol_value : Z) | PriceLpTokensToRedeem (amount sol_value : Z)
| SetLpWithdrawalFee (bps : Z) | SetLstFee (input_fee_bps output_fee_bps : Z)
| FlatRemoveLst | FlatAddLst (input_fee_bps output_fee_bps : Z)
| FlatSetManager | FlatInitialize.

(** flat-fee-lib/src/calc/common.rs:14-36. i16 additions: the sum of two i16 must fit i16, and so must
    10000 minus it, and the result must be nonnegative. *)
Definition i16b (x : Z) : bool := (-32768 <=? x) && (x <=? 32767).
Definition out_sol_value_ratio (input_fee_bps output_fee_bps : Z) : res Z :=
  let fee_bps := input_fee_bps + output_fee_bps in
  guard (i16b fee_bps) (Prog FlatMathError) (
  guard (i16b (10000 - fee_bps) && (0 <=? 10000 - fee_bps)) (Prog FlatMathError)
    (Ok (10000 - fee_bps))).

Definition map_err {A} (e : err) (m : res A) : res A := match m with Ok a => Ok a | Err _ => Err e end.

(** flat-fee-lib/src/calc/price_exact_in.rs:14-27 *)
Definition calculate_price_exact_in (input_fee_bps output_fee_bps in_sol_value : Z) : res Z :=
  post <- out_sol_value_ratio input_fee_bps output_fee_bps ;;
  map_err (Prog FlatMathError) (floor_apply post BPS_DENOMINATOR in_sol_value).
(** flat-fee-lib/src/calc/price_exact_out.rs:14-28 *)
Definition calculate_price_exact_out (R : RatioLib) (input_fee_bps output_fee_bps out_sol_value : Z)
  : res Z :=
  post <- out_sol_value_ratio input_fee_bps output_fee_bps ;;
  r <- map_err (Prog FlatMathError) (rl_reverse R post BPS_DENOMINATOR out_sol_value) ;;
  Ok (snd r).
(** flat-fee-lib/src/calc/price_lp_tokens_to_redeem.rs:4-13 *)
Definition calculate_price_lp_tokens_to_redeem (lp_withdrawal_fee_bps sol_value : Z) : res Z :=
  map_err (Prog FlatMathError) (ceil_fee_after lp_withdrawal_fee_bps BPS_DENOMINATOR sol_value).

(** flat-fee-lib/src/utils.rs:5-21 *)
Definition try_program_state (pw : PWorld) (k : key) : res (key * Z) :=
  match pdata pw k with PFlatState m f => Ok (m, f) | _ => Err (Prog InvalidProgramStateData) end.
Definition try_fee_account (pw : PWorld) (k : key) : res (Z * Z * Z) :=
  match pdata pw k with PFlatFee b i o => Ok (b, i, o) | _ => Err (Prog UnsupportedLstMint) end.

(** flat-fee-lib/src/fee_bound.rs:3-18 *)
Definition verify_signed_fee_bps_bound (x : Z) : res unit :=
  guard ((-10000 <=? x) && (x <=? 10000)) (Prog SignedFeeOutOfBound) (Ok tt).
Definition verify_unsigned_fee_bps_bound (x : Z) : res unit :=
  guard ((0 <=? x) && (x <=? 10000)) (Prog UnsignedFeeOutOfBound) (Ok tt).

(** flat-fee/src/processor/price_exact_in.rs:41-64 and price_exact_out.rs:42-65 (the same), with
    flat-fee-lib/src/account_resolvers/price_exact_in.rs:71-97. Returns the input LST's input fee and
    the output LST's output fee. *)
Definition verify_price_exact (F : FlatCfg) (pw : PWorld) (accs : list Meta) : res (Z * Z) :=
  match accs with
  | input_lst_mint :: output_lst_mint :: input_fee_acc :: output_fee_acc :: _ =>
    i <- try_fee_account pw (mk input_fee_acc) ;;
    o <- try_fee_account pw (mk output_fee_acc) ;;
    let '(ibump, ifee, _) := i in
    let '(obump, _, ofee) := o in
    ia <- of_option BadSeeds (fd_create F (mk input_lst_mint) ibump) ;;
    oa <- of_option BadSeeds (fd_create F (mk output_lst_mint) obump) ;;
    guard (keys_match [input_lst_mint; output_lst_mint; input_fee_acc; output_fee_acc]
             [mk input_lst_mint; mk output_lst_mint; ia; oa]) WrongAccount
      (Ok (ifee, ofee))
  | _ => Err NotEnoughAccountKeys
  end.

(** flat-fee/src/processor/price_exact_in.rs:15-39 *)
Definition process_price_exact_in (F : FlatCfg) (pw : PWorld) (accs : list Meta) (sol_value : Z)
  : res Z :=
  f <- verify_price_exact F pw accs ;; calculate_price_exact_in (fst f) (snd f) sol_value.
(** flat-fee/src/processor/price_exact_out.rs:16-40 *)
Definition process_price_exact_out (R : RatioLib) (F : FlatCfg) (pw : PWorld) (accs : list Meta)
  (sol_value : Z) : res Z :=
  f <- verify_price_exact F pw accs ;; calculate_price_exact_out R (fst f) (snd f) sol_value.
(** flat-fee/src/processor/price_lp_tokens_to_mint.rs:8-15: no account is looked at *)
Definition process_price_lp_tokens_to_mint (accs : list Meta) (sol_value : Z) : res Z := Ok sol_value.
(** flat-fee/src/processor/price_lp_tokens_to_redeem.rs:15-45 *)
Definition process_price_lp_tokens_to_redeem (F : FlatCfg) (pw : PWorld) (accs : list Meta)
  (sol_value : Z) : res Z :=
  match accs with
  | output_lst_mint :: state :: _ =>
    guard (keys_match [output_lst_mint; state] [mk output_lst_mint; ff_state F]) WrongAccount (
    st <- try_program_state pw (mk state) ;;
    calculate_price_lp_tokens_to_redeem (snd st) sol_value)
  | _ => Err NotEnoughAccountKeys
  end.

(** flat-fee/src/processor/set_lp_withdrawal_fee.rs:16-50,
    flat-fee-lib/src/account_resolvers/set_lp_withdrawal_fee.rs:27-41 *)
Definition process_set_lp_withdrawal_fee (F : FlatCfg) (pw : PWorld) (accs : list Meta) (bps : Z)
  : res PWorld :=
  match accs with
  | manager :: state :: _ =>
    guard (mk state =? ff_state F) (Prog IncorrectProgramState) (
    st <- try_program_state pw (mk state) ;;
    verify_keys_privs [manager; state] [fst st; ff_state F] [state] [manager] (
    _ <- verify_unsigned_fee_bps_bound bps ;;
    write_data (ff_id F) pw (mk state) (PFlatState (fst st) bps)))
  | _ => Err NotEnoughAccountKeys
  end.

(** flat-fee/src/processor/set_lst_fee.rs:16-50, flat-fee-lib/src/account_resolvers/set_lst_fee.rs:60-97:
    the fee account is not tied to a mint here; it only has to be an account of the program that
    parses. *)
Definition process_set_lst_fee (F : FlatCfg) (pw : PWorld) (accs : list Meta) (ifee ofee : Z)
  : res PWorld :=
  match accs with
  | manager :: fee_acc :: state :: _ =>
    guard (mk state =? ff_state F) (Prog IncorrectProgramState) (
    st <- try_program_state pw (mk state) ;;
    verify_keys_privs [manager; fee_acc; state] [fst st; mk fee_acc; ff_state F]
      [fee_acc] [manager] (
    _ <- verify_signed_fee_bps_bound ifee ;;
    _ <- verify_signed_fee_bps_bound ofee ;;
    fa <- try_fee_account pw (mk fee_acc) ;;
    write_data (ff_id F) pw (mk fee_acc) (PFlatFee (fst (fst fa)) ifee ofee)))
  | _ => Err NotEnoughAccountKeys
  end.

(** flat-fee/src/processor/remove_lst.rs:14-45, flat-fee-lib/src/account_resolvers/remove_lst.rs:32-63;
    sanctum_system_program_lib::close_account (not in /repo) takes the lamports out, empties the data
    and hands the account back to the system program. Closing an address that holds nothing is modelled
    as success without effect. *)
Definition process_flat_remove_lst (F : FlatCfg) (pw : PWorld) (accs : list Meta) : res PWorld :=
  match accs with
  | manager :: refund_rent_to :: fee_acc :: lst_mint :: state :: _ =>
    guard (mk state =? ff_state F) (Prog IncorrectProgramState) (
    st <- try_program_state pw (mk state) ;;
    verify_keys_privs [manager; refund_rent_to; fee_acc; lst_mint; state]
      [fst st; mk refund_rent_to; fst (fd_find F (mk lst_mint)); mk lst_mint; ff_state F]
      [refund_rent_to; fee_acc] [manager] (
    if powner pw (mk fee_acc) =? ff_id F then Ok (put_acc pw (mk fee_acc) no_account)
    else match pdata pw (mk fee_acc) with PEmpty => Ok pw | _ => Err SystemErr end))
  | _ => Err NotEnoughAccountKeys
  end.

(** flat-fee/src/processor/add_lst.rs:21-82, flat-fee-lib/src/account_resolvers/add_lst.rs:33-71;
    sanctum-s-common/src/token.rs:7-16 *)
Definition process_flat_add_lst (F : FlatCfg) (pw : PWorld) (accs : list Meta) (ifee ofee : Z)
  : res PWorld :=
  match accs with
  | manager :: payer :: fee_acc :: lst_mint :: state :: system_program :: _ =>
    guard (mk state =? ff_state F) (Prog IncorrectProgramState) (
    st <- try_program_state pw (mk state) ;;
    let '(addr, bump) := fd_find F (mk lst_mint) in
    verify_keys_privs [manager; payer; fee_acc; lst_mint; state; system_program]
      [fst st; mk payer; addr; mk lst_mint; ff_state F; SYSTEM_PROGRAM_ID]
      [payer; fee_acc] [manager; payer] (
    guard (is_token_program (powner pw (mk lst_mint))) InvalidData (
    guard (match pdata pw (mk lst_mint) with PMint => true | _ => false end) InvalidData (
    _ <- verify_signed_fee_bps_bound ifee ;;
    _ <- verify_signed_fee_bps_bound ofee ;;
    init_account (ff_id F) pw (mk fee_acc) (PFlatFee bump ifee ofee)))))
  | _ => Err NotEnoughAccountKeys
  end.

(** flat-fee/src/processor/set_manager.rs:13-41, flat-fee-lib/src/account_resolvers/set_manager.rs:25-43 *)
Definition process_flat_set_manager (F : FlatCfg) (pw : PWorld) (accs : list Meta) : res PWorld :=
  match accs with
  | current_manager :: new_manager :: state :: _ =>
    guard (mk state =? ff_state F) (Prog IncorrectProgramState) (
    st <- try_program_state pw (mk state) ;;
    verify_keys_privs [current_manager; new_manager; state] [fst st; mk new_manager; ff_state F]
      [state] [current_manager] (
    write_data (ff_id F) pw (mk state) (PFlatState (mk new_manager) (snd st))))
  | _ => Err NotEnoughAccountKeys
  end.

(** flat-fee-lib/src/lib.rs:36 *)
Definition INITIAL_LP_WITHDRAWAL_FEE_BPS : Z := 5.
(** flat-fee/src/processor/initialize.rs:21-59, flat-fee-lib/src/account_resolvers/initialize.rs:23-29 *)
Definition process_flat_initialize (F : FlatCfg) (pw : PWorld) (accs : list Meta) : res PWorld :=
  match accs with
  | payer :: state :: system_program :: _ =>
    verify_keys_privs [payer; state; system_program] [mk payer; ff_state F; SYSTEM_PROGRAM_ID]
      [payer; state] [payer] (
    init_account (ff_id F) pw (mk state) (PFlatState (ff_manager0 F) INITIAL_LP_WITHDRAWAL_FEE_BPS))
  | _ => Err NotEnoughAccountKeys
  end.

(** flat-fee/src/entrypoint.rs:12-40; the result is the new chain state and the return data *)
Definition flat_process (R : RatioLib) (F : FlatCfg) (pw : PWorld) (accs : list Meta) (ix : FlatIx)
  : res (PWorld * option Z) :=
  match ix with
  | PriceExactIn _ v => r <- process_price_exact_in F pw accs v ;; Ok (pw, Some r)
  | PriceExactOut _ v => r <- process_price_exact_out R F pw accs v ;; Ok (pw, Some r)
  | PriceLpTokensToMint _ v => r <- process_price_lp_tokens_to_mint accs v ;; Ok (pw, Some r)
  | PriceLpTokensToRedeem _ v => r <- process_price_lp_tokens_to_redeem F pw accs v ;; Ok (pw, Some r)
  | SetLpWithdrawalFee b => pw' <- process_set_lp_withdrawal_fee F pw accs b ;; Ok (pw', None)
  | SetLstFee i o => pw' <- process_set_lst_fee F pw accs i o ;; Ok (pw', None)
  | FlatRemoveLst => pw' <- process_flat_remove_lst F pw accs ;; Ok (pw', None)
  | FlatAddLst i o => pw' <- process_flat_add_lst F pw accs i o ;; Ok (pw', None)
  | FlatSetManager => pw' <- process_flat_set_manager F pw accs ;; Ok (pw', None)
  | FlatInitialize => pw' <- process_flat_initialize F pw accs ;; Ok (pw', None)
  end.

(** no-fee-pricing-program/src/lib.rs:16-39 *)
Definition nofee_process (ix : FlatIx) : res Z :=
  match ix with
  | PriceExactIn _ v | PriceExactOut _ v | PriceLpTokensToMint _ v | PriceLpTokensToRedeem _ v => Ok v
  | _ => Err InvalidData
  end.
