(** Model of programs/s-controller: the 23 instruction processors, their account resolvers and
    verification, in the code's order of checks. *)
From Coq Require Import ZArith List Bool.
From Verif Require Import Base Ratio Calc State.
Import ListNotations.
Open Scope Z_scope.

(* ------------------------------------------------------------------ *)
(** * Environment: programs reached by CPI, and the instructions sysvar *)

(** Answers of the SOL value calculator and pricing programs. They get the current world, the
    program invoked, the mint(s), the remaining accounts and the integer arguments
    (programs/s-controller/src/cpi/sol_value_calculator.rs:68-117, cpi/pricing_program.rs:73-136,
    190-253). Arbitrary functions; simplification: these CPIs do not change the world. *)
Record Env := {
  e_lst_to_sol : World -> key -> key -> list Meta -> Z -> res (Z * Z);
  e_sol_to_lst : World -> key -> key -> list Meta -> Z -> res (Z * Z);
  e_price_exact_in : World -> key -> key -> key -> list Meta -> Z -> Z -> res Z;
  e_price_exact_out : World -> key -> key -> key -> list Meta -> Z -> Z -> res Z;
  e_price_lp_to_mint : World -> key -> key -> list Meta -> Z -> Z -> res Z;
  e_price_lp_to_redeem : World -> key -> key -> list Meta -> Z -> Z -> res Z
}.

(** A top-level instruction as the instructions sysvar shows it. *)
Record TopIx := mkTop { ti_prog : key; ti_accs : list Meta; ti_data : list Z }.
(** The transaction's top-level instructions and the index of the running one. *)
Record Ctx := mkCtx { cx_ixs : list TopIx; cx_cur : nat }.

(* ------------------------------------------------------------------ *)
(** * Instructions — generated/s_controller_interface/src/instructions.rs:11-35 and the IxArgs
    structs (e.g. :1122-1461 for AddLiquidity) *)
Record SwapExactInArgs := mkSwapIn {
  si_src_lst_value_calc_accs : Z; si_dst_lst_value_calc_accs : Z;
  si_src_lst_index : Z; si_dst_lst_index : Z; si_min_amount_out : Z; si_amount : Z }.
Record SwapExactOutArgs := mkSwapOut {
  so_src_lst_value_calc_accs : Z; so_dst_lst_value_calc_accs : Z;
  so_src_lst_index : Z; so_dst_lst_index : Z; so_max_amount_in : Z; so_amount : Z }.
Record AddLiquidityArgs := mkAddLiq {
  al_lst_value_calc_accs : Z; al_lst_index : Z; al_lst_amount : Z; al_min_lp_out : Z }.
Record RemoveLiquidityArgs := mkRemLiq {
  rl_lst_value_calc_accs : Z; rl_lst_index : Z; rl_lp_token_amount : Z; rl_min_lst_out : Z }.
Record StartRebalanceArgs := mkStartReb {
  sr_src_lst_calc_accs : Z; sr_src_lst_index : Z; sr_dst_lst_index : Z; sr_amount : Z;
  sr_min_starting_src_lst : Z; sr_max_starting_dst_lst : Z }.

Inductive Ix :=
| SyncSolValue (lst_index : Z)
| SwapExactIn (a : SwapExactInArgs)
| SwapExactOut (a : SwapExactOutArgs)
| AddLiquidity (a : AddLiquidityArgs)
| RemoveLiquidity (a : RemoveLiquidityArgs)
| DisableLstInput (index : Z)
| EnableLstInput (index : Z)
| AddLst
| RemoveLst (lst_index : Z)
| SetSolValueCalculator (lst_index : Z)
| SetAdmin
| SetProtocolFee (new_trading new_lp : option Z)
| SetProtocolFeeBeneficiary
| SetPricingProgram
| WithdrawProtocolFees (amount : Z)
| AddDisablePoolAuthority
| RemoveDisablePoolAuthority (index : Z)
| DisablePool
| EnablePool
| StartRebalance (a : StartRebalanceArgs)
| EndRebalance
| SetRebalanceAuthority
| Initialize.

(** Arguments are within their Rust types (deserialisation yields nothing else, see Serde.v). *)
Definition opt_u16b (o : option Z) : bool := match o with None => true | Some x => u16b x end.
Definition ix_wfb (ix : Ix) : bool :=
  match ix with
  | SyncSolValue i | DisableLstInput i | EnableLstInput i | RemoveLst i
  | SetSolValueCalculator i | RemoveDisablePoolAuthority i => u32b i
  | SwapExactIn a =>
      u8b (si_src_lst_value_calc_accs a) && u8b (si_dst_lst_value_calc_accs a) &&
      u32b (si_src_lst_index a) && u32b (si_dst_lst_index a) &&
      u64b (si_min_amount_out a) && u64b (si_amount a)
  | SwapExactOut a =>
      u8b (so_src_lst_value_calc_accs a) && u8b (so_dst_lst_value_calc_accs a) &&
      u32b (so_src_lst_index a) && u32b (so_dst_lst_index a) &&
      u64b (so_max_amount_in a) && u64b (so_amount a)
  | AddLiquidity a =>
      u8b (al_lst_value_calc_accs a) && u32b (al_lst_index a) && u64b (al_lst_amount a) &&
      u64b (al_min_lp_out a)
  | RemoveLiquidity a =>
      u8b (rl_lst_value_calc_accs a) && u32b (rl_lst_index a) && u64b (rl_lp_token_amount a) &&
      u64b (rl_min_lst_out a)
  | SetProtocolFee t l => opt_u16b t && opt_u16b l
  | WithdrawProtocolFees a => u64b a
  | StartRebalance a =>
      u8b (sr_src_lst_calc_accs a) && u32b (sr_src_lst_index a) && u32b (sr_dst_lst_index a) &&
      u64b (sr_amount a) && u64b (sr_min_starting_src_lst a) && u64b (sr_max_starting_dst_lst a)
  | AddLst | SetAdmin | SetProtocolFeeBeneficiary | SetPricingProgram | AddDisablePoolAuthority
  | DisablePool | EnablePool | EndRebalance | SetRebalanceAuthority | Initialize => true
  end.

(* ------------------------------------------------------------------ *)
(** * Account verification helpers *)

(** The generated [*_verify_account_keys] functions compare actual and expected keys pairwise
    (e.g. generated/s_controller_interface/src/instructions.rs:372-387). *)
Fixpoint keys_match (accs : list Meta) (expected : list key) : bool :=
  match accs, expected with
  | [], [] => true
  | a :: accs', e :: expected' => (mk a =? e) && keys_match accs' expected'
  | _, _ => false
  end.

(** The generated [*_verify_account_privileges] functions: writable flags, then signer flags
    (e.g. instructions.rs:388-402). *)
Definition privileges_ok (writables signers : list Meta) : bool :=
  forallb is_writable writables && forallb is_signer signers.

Definition verify_keys_privs {A} (accs : list Meta) (expected : list key)
  (writables signers : list Meta) (k : res A) : res A :=
  guard (keys_match accs expected) WrongAccount (
  guard (privileges_ok writables signers) PrivilegeErr k).

(** programs/s-controller/src/verify.rs:21-31 *)
Definition verify_not_rebalancing_and_not_disabled (ps : PoolState) : res unit :=
  guard (negb (u8bool_is_true (is_rebalancing ps))) (Ctl PoolRebalancing) (
  guard (negb (u8bool_is_true (is_disabled ps))) (Ctl PoolDisabled) (Ok tt)).

(** programs/s-controller/src/verify.rs:33-38 *)
Definition verify_lst_input_not_disabled (ls : LstState) : res unit :=
  guard (negb (u8bool_is_true (is_input_disabled ls))) (Ctl LstInputDisabled) (Ok tt).

(** libs/s-controller-lib/src/disable_pool_authority_list.rs:4-21 (find: 19-21) — first position of an element *)
Fixpoint find_key (k : key) (l : list key) : option nat :=
  match l with
  | [] => None
  | x :: t => if x =? k then Some 0%nat
              else match find_key k t with Some n => Some (S n) | None => None end
  end.

(** programs/s-controller/src/verify.rs:40-53 *)
Definition verify_admin_or_disable_pool_authority (w : World) (signer : key) (ps : PoolState)
  (list_acc : key) : res unit :=
  if signer =? admin ps then Ok tt
  else
    l <- try_disable_pool_authority_list w list_acc ;;
    guard (match find_key signer l with Some _ => true | None => false end)
      (Ctl InvalidDisablePoolAuthority) (Ok tt).

(** programs/s-controller/src/verify.rs:358-366 *)
Definition verify_swap_not_same_lst (src dst : key) : res unit :=
  guard (negb (src =? dst)) (Ctl SwapSameLst) (Ok tt).

(** programs/s-controller/src/verify.rs:368-391 *)
Definition verify_is_program (w : World) (k : key) (e : ctl_err) : res unit :=
  guard (w_exec w k) (Ctl e) (Ok tt).

(** A verified CPI target: program, and the accounts after it in the suffix slice.
    programs/s-controller/src/cpi/sol_value_calculator.rs:15-25, cpi/pricing_program.rs:26-37,
    138-150 *)
Record Cpi := mkCpi { cpi_prog : Meta; cpi_accs : list Meta }.

(** cpi/sol_value_calculator.rs:32-46; cpi/pricing_program.rs:45-59, 158-176 *)
Definition cpi_from_suffix (suffix : list Meta) : res Cpi :=
  match suffix with
  | [] => Err NotEnoughAccountKeys
  | p :: rest => Ok (mkCpi p rest)
  end.

(** Rust slice [s.get(..n)] and [s.get(n..)] *)
Definition slice_to (s : list Meta) (n : Z) : res (list Meta) :=
  if n <=? Z.of_nat (length s) then Ok (firstn (Z.to_nat n) s) else Err NotEnoughAccountKeys.
Definition slice_from (s : list Meta) (n : Z) : res (list Meta) :=
  if n <=? Z.of_nat (length s) then Ok (skipn (Z.to_nat n) s) else Err NotEnoughAccountKeys.

Definition nth_lst (l : list LstState) (i : Z) : option LstState := nth_error l (Z.to_nat i).

(** verify.rs:73-87 with cpi/sol_value_calculator.rs:51-66 *)
Definition verify_lst_sol_val_calc_cpi (w : World) (list_acc : key) (suffix : list Meta)
  (lst_index : Z) : res Cpi :=
  c <- cpi_from_suffix suffix ;;
  l <- try_lst_state_list w list_acc ;;
  ls <- of_option (Ctl InvalidLstIndex) (nth_lst l lst_index) ;;
  guard (mk (cpi_prog c) =? sol_value_calculator ls) (Ctl IncorrectSolValueCalculator) (Ok c).

(** verify.rs:107-121, 141-154 with cpi/pricing_program.rs:61-71, 178-188 *)
Definition verify_pricing_cpi (w : World) (pool_acc : key) (suffix : list Meta) : res Cpi :=
  c <- cpi_from_suffix suffix ;;
  ps <- try_pool_state w pool_acc ;;
  guard (mk (cpi_prog c) =? pricing_program ps) (Ctl IncorrectPricingProgram) (Ok c).

(** verify.rs:174-217 *)
Definition verify_src_dst_lst_sol_val_calc_cpis (w : World) (list_acc : key) (suffix : list Meta)
  (src_calc_accs src_index dst_index : Z) : res (Cpi * Cpi) :=
  src_slice <- slice_to suffix src_calc_accs ;;
  src <- verify_lst_sol_val_calc_cpi w list_acc src_slice src_index ;;
  dst_slice <- slice_from suffix src_calc_accs ;;
  dst <- verify_lst_sol_val_calc_cpi w list_acc dst_slice dst_index ;;
  Ok (src, dst).

(** verify.rs:241-283 *)
Definition verify_lp_cpis (w : World) (list_acc pool_acc : key) (suffix : list Meta)
  (calc_accs lst_index : Z) : res (Cpi * Cpi) :=
  lst_slice <- slice_to suffix calc_accs ;;
  lst <- verify_lst_sol_val_calc_cpi w list_acc lst_slice lst_index ;;
  pricing_slice <- slice_from suffix calc_accs ;;
  pricing <- verify_pricing_cpi w pool_acc pricing_slice ;;
  Ok (lst, pricing).

(** verify.rs:307-356 *)
Definition verify_swap_cpis (w : World) (list_acc pool_acc : key) (suffix : list Meta)
  (src_calc_accs dst_calc_accs src_index dst_index : Z) : res (Cpi * Cpi * Cpi) :=
  let e := src_calc_accs + dst_calc_accs in
  calc_slice <- slice_to suffix e ;;
  '(src, dst) <- verify_src_dst_lst_sol_val_calc_cpis w list_acc calc_slice src_calc_accs
                   src_index dst_index ;;
  pricing_slice <- slice_from suffix e ;;
  pricing <- verify_pricing_cpi w pool_acc pricing_slice ;;
  Ok (src, dst, pricing).

(* ------------------------------------------------------------------ *)
(** * CPI invocations. The return data is borsh-decoded as u64s, so anything else is an error
    (cpi/sol_value_calculator.rs:68-84; cpi/pricing_program.rs:73-87, 113-118, 190-198, 222-227). *)
(* A CPI that fails aborts the caller, whatever the callee's error was. *)
Definition of_ext {A} (r : res A) : res A :=
  match r with Ok x => Ok x | Err _ => Err ExternalErr end.
Definition decode_range (r : res (Z * Z)) : res (Z * Z) :=
  '(lo, hi) <- of_ext r ;;
  guard (u64b lo && u64b hi) (Ctl FaultySolValueCalculator) (Ok (lo, hi)).
Definition decode_u64 (r : res Z) : res Z :=
  x <- of_ext r ;; guard (u64b x) (Ctl FaultyPricingProgram) (Ok x).

Definition invoke_lst_to_sol (E : Env) (w : World) (c : Cpi) (mint : key) (amt : Z) : res (Z * Z) :=
  decode_range (e_lst_to_sol E w (mk (cpi_prog c)) mint (cpi_accs c) amt).
Definition invoke_sol_to_lst (E : Env) (w : World) (c : Cpi) (mint : key) (amt : Z) : res (Z * Z) :=
  decode_range (e_sol_to_lst E w (mk (cpi_prog c)) mint (cpi_accs c) amt).
Definition invoke_price_exact_in (E : Env) (w : World) (c : Cpi) (src dst : key) (amount sol : Z) :=
  decode_u64 (e_price_exact_in E w (mk (cpi_prog c)) src dst (cpi_accs c) amount sol).
Definition invoke_price_exact_out (E : Env) (w : World) (c : Cpi) (src dst : key) (amount sol : Z) :=
  decode_u64 (e_price_exact_out E w (mk (cpi_prog c)) src dst (cpi_accs c) amount sol).
Definition invoke_price_lp_to_mint (E : Env) (w : World) (c : Cpi) (mint : key) (amount sol : Z) :=
  decode_u64 (e_price_lp_to_mint E w (mk (cpi_prog c)) mint (cpi_accs c) amount sol).
Definition invoke_price_lp_to_redeem (E : Env) (w : World) (c : Cpi) (mint : key) (amount sol : Z) :=
  decode_u64 (e_price_lp_to_redeem E w (mk (cpi_prog c)) mint (cpi_accs c) amount sol).

(* ------------------------------------------------------------------ *)
(** * Sync *)

(** libs/s-controller-lib/src/state.rs:8-24 *)
Definition sync_sol_value_with_retval (ps : PoolState) (ls : LstState) (returned_sol_value : Z)
  : res (PoolState * LstState) :=
  x <- checked_sub (Ctl MathError) (total_sol_value ps) (sol_value ls) ;;
  y <- checked_add (Ctl MathError) x returned_sol_value ;;
  Ok (set_total ps y, set_sol_value ls returned_sol_value).

(** programs/s-controller/src/processor/sync_sol_value.rs:61-83; indexing [list[lst_index]] panics
    when out of range *)
Definition sync_sol_value_unchecked (E : Env) (w : World) (pool_acc list_acc reserves : key)
  (c : Cpi) (mint : key) (lst_index : Z) : res World :=
  lst_balance <- token_account_balance w reserves ;;
  '(lo, _) <- invoke_lst_to_sol E w c mint lst_balance ;;
  ps <- try_pool_state w pool_acc ;;
  l <- try_lst_state_list w list_acc ;;
  ls <- of_option Panic (nth_lst l lst_index) ;;
  '(ps', ls') <- sync_sol_value_with_retval ps ls lo ;;
  Ok (put_list (put_pool w pool_acc (Some ps')) list_acc
        (Some (replace_nth l (Z.to_nat lst_index) ls'))).

(** libs/s-controller-lib/src/state.rs:41-58: reading one field of the pool state account *)
Definition pool_field {A} (w : World) (pool_acc : key) (f : PoolState -> A) : res A :=
  ps <- try_pool_state w pool_acc ;; Ok (f ps).

Section WithDerive.
Variable D : Derive.

(** libs/s-controller-lib/src/pda.rs:11-37 (wallet = pool state PDA, bump stored in the entry) *)
Definition create_pool_reserves_address (ls : LstState) (token_program : key) : res key :=
  of_option (Ctl InvalidReserves)
    (d_create D POOL_STATE_ID token_program (ls_mint ls) (pool_reserves_bump ls)).
(** libs/s-controller-lib/src/pda.rs:39-69 (wallet = protocol fee PDA) *)
Definition create_protocol_fee_accumulator_address (ls : LstState) (token_program : key) : res key :=
  of_option (Ctl InvalidReserves)
    (d_create D PROTOCOL_FEE_ID token_program (ls_mint ls) (protocol_fee_accumulator_bump ls)).
(** libs/s-controller-lib/src/pda.rs:77-113 *)
Definition find_pool_reserves_address (mint token_program : key) : key * Z :=
  d_find D POOL_STATE_ID token_program mint.
Definition find_protocol_fee_accumulator_address (mint token_program : key) : key * Z :=
  d_find D PROTOCOL_FEE_ID token_program mint.

(** libs/s-controller-lib/src/lst_state_list.rs:6-18 *)
Definition try_match_lst_mint_on_list (mint : key) (l : list LstState) (i : Z) : res LstState :=
  ls <- of_option (Ctl InvalidLstIndex) (nth_lst l i) ;;
  guard (ls_mint ls =? mint) (Ctl InvalidLstIndex) (Ok ls).

Definition check_pool_key {A} (k : key) (r : res A) : res A :=
  guard (k =? POOL_STATE_ID) (Ctl IncorrectPoolState) r.
Definition check_list_key {A} (k : key) (r : res A) : res A :=
  guard (k =? LST_STATE_LIST_ID) (Ctl IncorrectLstStateList) r.

(* ------------------------------------------------------------------ *)
(** * SyncSolValue *)

(** libs/s-controller-lib/src/accounts_resolvers/sync_sol_value.rs:26-42 *)
Definition resolve_sync_sol_value (w : World) (lst_index : Z) (list_acc lst_mint : key)
  : res (list key) :=
  check_list_key list_acc (
  l <- try_lst_state_list w list_acc ;;
  ls <- try_match_lst_mint_on_list lst_mint l lst_index ;;
  pool_reserves <- create_pool_reserves_address ls (w_owner w lst_mint) ;;
  Ok [ls_mint ls; POOL_STATE_ID; LST_STATE_LIST_ID; pool_reserves]).

(** programs/s-controller/src/processor/sync_sol_value.rs:28-36, 85-131;
    accounts generated instructions.rs:188-402 *)
Definition process_sync_sol_value (E : Env) (w : World) (accs : list Meta) (lst_index : Z)
  : res World :=
  match accs with
  | lst_mint :: pool_state :: lst_state_list :: pool_reserves :: suffix =>
    expected <- resolve_sync_sol_value w lst_index (mk lst_state_list) (mk lst_mint) ;;
    verify_keys_privs [lst_mint; pool_state; lst_state_list; pool_reserves] expected
      [pool_state; lst_state_list] [] (
    ps <- try_pool_state w (mk pool_state) ;;
    _ <- verify_not_rebalancing_and_not_disabled ps ;;
    c <- verify_lst_sol_val_calc_cpi w (mk lst_state_list) suffix lst_index ;;
    sync_sol_value_unchecked E w (mk pool_state) (mk lst_state_list) (mk pool_reserves) c
      (mk lst_mint) lst_index)
  | _ => Err NotEnoughAccountKeys
  end.

(* ------------------------------------------------------------------ *)
(** * Swaps *)

(** libs/s-controller-lib/src/accounts_resolvers/swap.rs:41-102 (exact-out: 104-132 is the same
    key list); result in account order *)
Definition resolve_swap (w : World) (src_index dst_index : Z)
  (signer src_lst_acc dst_lst_acc src_mint dst_mint list_acc : key) : res (list key) :=
  check_list_key list_acc (
  l <- try_lst_state_list w list_acc ;;
  src <- try_match_lst_mint_on_list src_mint l src_index ;;
  src_pool_reserves <- create_pool_reserves_address src (w_owner w src_mint) ;;
  dst <- try_match_lst_mint_on_list dst_mint l dst_index ;;
  dst_pool_reserves <- create_pool_reserves_address dst (w_owner w dst_mint) ;;
  protocol_fee_accumulator <- create_protocol_fee_accumulator_address dst (w_owner w dst_mint) ;;
  Ok [signer; src_mint; dst_mint; src_lst_acc; dst_lst_acc; protocol_fee_accumulator;
      w_owner w src_mint; w_owner w dst_mint; POOL_STATE_ID; LST_STATE_LIST_ID;
      src_pool_reserves; dst_pool_reserves]).

Record SwapAccounts := mkSwapAccounts {
  sa_signer : Meta; sa_src_lst_mint : Meta; sa_dst_lst_mint : Meta; sa_src_lst_acc : Meta;
  sa_dst_lst_acc : Meta; sa_protocol_fee_accumulator : Meta; sa_src_lst_token_program : Meta;
  sa_dst_lst_token_program : Meta; sa_pool_state : Meta; sa_lst_state_list : Meta;
  sa_src_pool_reserves : Meta; sa_dst_pool_reserves : Meta }.

(** programs/s-controller/src/processor/swap_exact_in.rs:161-209 (= swap_exact_out.rs:160-208);
    accounts generated instructions.rs:404-763 (765-1120) *)
Definition verify_swap (w : World) (accs : list Meta)
  (src_calc_accs dst_calc_accs src_index dst_index : Z) : res (SwapAccounts * (Cpi * Cpi * Cpi)) :=
  match accs with
  | signer :: src_lst_mint :: dst_lst_mint :: src_lst_acc :: dst_lst_acc ::
    protocol_fee_accumulator :: src_lst_token_program :: dst_lst_token_program :: pool_state ::
    lst_state_list :: src_pool_reserves :: dst_pool_reserves :: suffix =>
    expected <- resolve_swap w src_index dst_index (mk signer) (mk src_lst_acc) (mk dst_lst_acc)
                  (mk src_lst_mint) (mk dst_lst_mint) (mk lst_state_list) ;;
    verify_keys_privs
      [signer; src_lst_mint; dst_lst_mint; src_lst_acc; dst_lst_acc; protocol_fee_accumulator;
       src_lst_token_program; dst_lst_token_program; pool_state; lst_state_list;
       src_pool_reserves; dst_pool_reserves] expected
      [src_lst_acc; dst_lst_acc; protocol_fee_accumulator; pool_state; lst_state_list;
       src_pool_reserves; dst_pool_reserves] [signer] (
    _ <- verify_swap_not_same_lst (mk src_lst_mint) (mk dst_lst_mint) ;;
    ps <- try_pool_state w (mk pool_state) ;;
    _ <- verify_not_rebalancing_and_not_disabled ps ;;
    l <- try_lst_state_list w (mk lst_state_list) ;;
    src <- of_option Panic (nth_lst l src_index) ;;
    _ <- verify_lst_input_not_disabled src ;;
    cpis <- verify_swap_cpis w (mk lst_state_list) (mk pool_state) suffix src_calc_accs
              dst_calc_accs src_index dst_index ;;
    Ok (mkSwapAccounts signer src_lst_mint dst_lst_mint src_lst_acc dst_lst_acc
          protocol_fee_accumulator src_lst_token_program dst_lst_token_program pool_state
          lst_state_list src_pool_reserves dst_pool_reserves, cpis))
  | _ => Err NotEnoughAccountKeys
  end.

Definition sync_src (E : Env) (w : World) (A : SwapAccounts) (c : Cpi) (i : Z) : res World :=
  sync_sol_value_unchecked E w (mk (sa_pool_state A)) (mk (sa_lst_state_list A))
    (mk (sa_src_pool_reserves A)) c (mk (sa_src_lst_mint A)) i.
Definition sync_dst (E : Env) (w : World) (A : SwapAccounts) (c : Cpi) (i : Z) : res World :=
  sync_sol_value_unchecked E w (mk (sa_pool_state A)) (mk (sa_lst_state_list A))
    (mk (sa_dst_pool_reserves A)) c (mk (sa_dst_lst_mint A)) i.

(** swap_exact_in.rs:86-134 = swap_exact_out.rs:85-133: liquidity check, the three transfers,
    re-sync of both legs and the final no-loss check. *)
Definition swap_settle (E : Env) (w : World) (A : SwapAccounts) (src_cpi dst_cpi : Cpi)
  (src_index dst_index start_total src_in dst_out to_protocol : Z) : res World :=
  total_dst_lst_out <- checked_add (Ctl MathError) dst_out to_protocol ;;
  dst_balance <- token_account_balance w (mk (sa_dst_pool_reserves A)) ;;
  guard (total_dst_lst_out <=? dst_balance) (Ctl NotEnoughLiquidity) (
  w1 <- transfer_checked w (mk (sa_src_lst_token_program A)) (mk (sa_src_lst_acc A))
          (mk (sa_src_pool_reserves A)) (mk (sa_src_lst_mint A)) (mk (sa_signer A))
          (is_signer (sa_signer A)) src_in ;;
  w2 <- transfer_checked w1 (mk (sa_dst_lst_token_program A)) (mk (sa_dst_pool_reserves A))
          (mk (sa_protocol_fee_accumulator A)) (mk (sa_dst_lst_mint A)) (mk (sa_pool_state A))
          true to_protocol ;;
  w3 <- transfer_checked w2 (mk (sa_dst_lst_token_program A)) (mk (sa_dst_pool_reserves A))
          (mk (sa_dst_lst_acc A)) (mk (sa_dst_lst_mint A)) (mk (sa_pool_state A))
          true dst_out ;;
  w4 <- sync_src E w3 A src_cpi src_index ;;
  w5 <- sync_dst E w4 A dst_cpi dst_index ;;
  end_total <- pool_field w5 (mk (sa_pool_state A)) total_sol_value ;;
  guard (start_total <=? end_total) (Ctl PoolWouldLoseSolValue) (Ok w5)).

(** programs/s-controller/src/processor/swap_exact_in.rs:34-135, 157-159 *)
Definition process_swap_exact_in (E : Env) (w : World) (accs : list Meta) (a : SwapExactInArgs)
  : res World :=
  guard (negb (si_amount a =? 0)) (Ctl ZeroValue) (
  '(A, (src_cpi, dst_cpi, pricing_cpi)) <-
     verify_swap w accs (si_src_lst_value_calc_accs a) (si_dst_lst_value_calc_accs a)
       (si_src_lst_index a) (si_dst_lst_index a) ;;
  w1 <- sync_src E w A src_cpi (si_src_lst_index a) ;;
  w2 <- sync_dst E w1 A dst_cpi (si_dst_lst_index a) ;;
  start_total <- pool_field w2 (mk (sa_pool_state A)) total_sol_value ;;
  '(in_sol_value, _) <- invoke_lst_to_sol E w2 src_cpi (mk (sa_src_lst_mint A)) (si_amount a) ;;
  guard (negb (in_sol_value =? 0)) (Ctl ZeroValue) (
  out_sol_value <- invoke_price_exact_in E w2 pricing_cpi (mk (sa_src_lst_mint A))
                     (mk (sa_dst_lst_mint A)) (si_amount a) in_sol_value ;;
  '(dst_lst_out, _) <- invoke_sol_to_lst E w2 dst_cpi (mk (sa_dst_lst_mint A)) out_sol_value ;;
  guard (si_min_amount_out a <=? dst_lst_out) (Ctl SlippageToleranceExceeded) (
  guard (negb (dst_lst_out =? 0)) (Ctl ZeroValue) (
  bps <- pool_field w2 (mk (sa_pool_state A)) trading_protocol_fee_bps ;;
  to_protocol <- calc_swap_protocol_fees in_sol_value out_sol_value dst_lst_out bps ;;
  swap_settle E w2 A src_cpi dst_cpi (si_src_lst_index a) (si_dst_lst_index a) start_total
    (si_amount a) dst_lst_out to_protocol)))).

(** programs/s-controller/src/processor/swap_exact_out.rs:33-134, 156-158 *)
Definition process_swap_exact_out (E : Env) (w : World) (accs : list Meta) (a : SwapExactOutArgs)
  : res World :=
  guard (negb ((so_amount a =? 0) || (so_max_amount_in a =? 0))) (Ctl ZeroValue) (
  '(A, (src_cpi, dst_cpi, pricing_cpi)) <-
     verify_swap w accs (so_src_lst_value_calc_accs a) (so_dst_lst_value_calc_accs a)
       (so_src_lst_index a) (so_dst_lst_index a) ;;
  w1 <- sync_src E w A src_cpi (so_src_lst_index a) ;;
  w2 <- sync_dst E w1 A dst_cpi (so_dst_lst_index a) ;;
  start_total <- pool_field w2 (mk (sa_pool_state A)) total_sol_value ;;
  '(_, out_sol_value) <- invoke_lst_to_sol E w2 dst_cpi (mk (sa_dst_lst_mint A)) (so_amount a) ;;
  guard (negb (out_sol_value =? 0)) (Ctl ZeroValue) (
  in_sol_value <- invoke_price_exact_out E w2 pricing_cpi (mk (sa_src_lst_mint A))
                    (mk (sa_dst_lst_mint A)) (so_amount a) out_sol_value ;;
  '(_, src_lst_in) <- invoke_sol_to_lst E w2 src_cpi (mk (sa_src_lst_mint A)) in_sol_value ;;
  guard (src_lst_in <=? so_max_amount_in a) (Ctl SlippageToleranceExceeded) (
  guard (negb (src_lst_in =? 0)) (Ctl ZeroValue) (
  bps <- pool_field w2 (mk (sa_pool_state A)) trading_protocol_fee_bps ;;
  to_protocol <- calc_swap_protocol_fees in_sol_value out_sol_value (so_amount a) bps ;;
  swap_settle E w2 A src_cpi dst_cpi (so_src_lst_index a) (so_dst_lst_index a) start_total
    src_lst_in (so_amount a) to_protocol)))).

(* ------------------------------------------------------------------ *)
(** * Liquidity *)

(** accounts_resolvers/add_liquidity.rs:35-75 and remove_liquidity.rs:35-75 (same keys; the two
    user accounts are in the same positions) *)
Definition resolve_liquidity (w : World) (lst_index : Z)
  (signer user_acc_1 user_acc_2 pool_acc list_acc lst_mint : key) : res (list key) :=
  check_pool_key pool_acc (
  check_list_key list_acc (
  l <- try_lst_state_list w list_acc ;;
  ls <- try_match_lst_mint_on_list lst_mint l lst_index ;;
  pool_reserves <- create_pool_reserves_address ls (w_owner w lst_mint) ;;
  protocol_fee_accumulator <- create_protocol_fee_accumulator_address ls (w_owner w lst_mint) ;;
  ps <- try_pool_state w pool_acc ;;
  Ok [signer; lst_mint; user_acc_1; user_acc_2; lp_token_mint ps; protocol_fee_accumulator;
      w_owner w lst_mint; SPL_TOKEN_ID; POOL_STATE_ID; LST_STATE_LIST_ID; pool_reserves])).

(** AddLiquidity: la_lst_acc = src_lst_acc, la_lp_acc = dst_lp_acc; RemoveLiquidity: dst_lst_acc,
    src_lp_acc (instructions.rs:1122-1459, 1461-1798) *)
Record LiqAccounts := mkLiqAccounts {
  la_signer : Meta; la_lst_mint : Meta; la_lst_acc : Meta; la_lp_acc : Meta;
  la_lp_token_mint : Meta; la_protocol_fee_accumulator : Meta; la_lst_token_program : Meta;
  la_lp_token_program : Meta; la_pool_state : Meta; la_lst_state_list : Meta;
  la_pool_reserves : Meta }.

(** add_liquidity.rs:154-191 with [check_input] = true; remove_liquidity.rs:146-177 with false *)
Definition verify_liquidity (w : World) (accs : list Meta) (check_input : bool)
  (calc_accs lst_index : Z) : res (LiqAccounts * (Cpi * Cpi)) :=
  match accs with
  | signer :: lst_mint :: lst_acc :: lp_acc :: lp_mint :: protocol_fee_accumulator ::
    lst_token_program :: lp_token_program :: pool_state :: lst_state_list :: pool_reserves ::
    suffix =>
    expected <- resolve_liquidity w lst_index (mk signer) (mk lst_acc) (mk lp_acc)
                  (mk pool_state) (mk lst_state_list) (mk lst_mint) ;;
    verify_keys_privs
      [signer; lst_mint; lst_acc; lp_acc; lp_mint; protocol_fee_accumulator; lst_token_program;
       lp_token_program; pool_state; lst_state_list; pool_reserves] expected
      [lst_acc; lp_acc; lp_mint; protocol_fee_accumulator; pool_state; lst_state_list;
       pool_reserves] [signer] (
    ps <- try_pool_state w (mk pool_state) ;;
    _ <- verify_not_rebalancing_and_not_disabled ps ;;
    _ <- (if check_input then
            l <- try_lst_state_list w (mk lst_state_list) ;;
            ls <- of_option Panic (nth_lst l lst_index) ;;
            verify_lst_input_not_disabled ls
          else Ok tt) ;;
    cpis <- verify_lp_cpis w (mk lst_state_list) (mk pool_state) suffix calc_accs lst_index ;;
    Ok (mkLiqAccounts signer lst_mint lst_acc lp_acc lp_mint protocol_fee_accumulator
          lst_token_program lp_token_program pool_state lst_state_list pool_reserves, cpis))
  | _ => Err NotEnoughAccountKeys
  end.

Definition sync_liq (E : Env) (w : World) (A : LiqAccounts) (c : Cpi) (i : Z) : res World :=
  sync_sol_value_unchecked E w (mk (la_pool_state A)) (mk (la_lst_state_list A))
    (mk (la_pool_reserves A)) c (mk (la_lst_mint A)) i.

(** programs/s-controller/src/processor/add_liquidity.rs:33-131, 150-152 *)
Definition process_add_liquidity (E : Env) (w : World) (accs : list Meta) (a : AddLiquidityArgs)
  : res World :=
  guard (negb (al_lst_amount a =? 0)) (Ctl ZeroValue) (
  '(A, (lst_cpi, pricing_cpi)) <-
     verify_liquidity w accs true (al_lst_value_calc_accs a) (al_lst_index a) ;;
  w1 <- sync_liq E w A lst_cpi (al_lst_index a) ;;
  start_total <- pool_field w1 (mk (la_pool_state A)) total_sol_value ;;
  '(lst_sol, _) <- invoke_lst_to_sol E w1 lst_cpi (mk (la_lst_mint A)) (al_lst_amount a) ;;
  after_fees <- invoke_price_lp_to_mint E w1 pricing_cpi (mk (la_lst_mint A)) (al_lst_amount a)
                  lst_sol ;;
  guard (after_fees <=? lst_sol) (Ctl PoolWouldLoseSolValue) (
  bps <- pool_field w1 (mk (la_pool_state A)) lp_protocol_fee_bps ;;
  '(to_reserves, to_protocol) <-
     calc_add_liquidity_protocol_fees (al_lst_amount a) lst_sol after_fees bps ;;
  pool_total <- pool_field w1 (mk (la_pool_state A)) total_sol_value ;;
  lp_supply <- mint_supply w1 (mk (la_lp_token_mint A)) ;;
  lp_to_mint <- calc_lp_tokens_to_mint lp_supply pool_total after_fees ;;
  guard (negb ((to_reserves =? 0) || (lp_to_mint =? 0))) (Ctl ZeroValue) (
  guard (al_min_lp_out a <=? lp_to_mint) (Ctl SlippageToleranceExceeded) (
  w2 <- transfer_checked w1 (mk (la_lst_token_program A)) (mk (la_lst_acc A))
          (mk (la_pool_reserves A)) (mk (la_lst_mint A)) (mk (la_signer A))
          (is_signer (la_signer A)) to_reserves ;;
  w3 <- transfer_checked w2 (mk (la_lst_token_program A)) (mk (la_lst_acc A))
          (mk (la_protocol_fee_accumulator A)) (mk (la_lst_mint A)) (mk (la_signer A))
          (is_signer (la_signer A)) to_protocol ;;
  w4 <- mint_to w3 (mk (la_lp_token_program A)) (mk (la_lp_token_mint A)) (mk (la_lp_acc A))
          (mk (la_pool_state A)) true lp_to_mint ;;
  w5 <- sync_liq E w4 A lst_cpi (al_lst_index a) ;;
  end_total <- pool_field w5 (mk (la_pool_state A)) total_sol_value ;;
  guard (start_total <=? end_total) (Ctl PoolWouldLoseSolValue) (Ok w5))))).

(** programs/s-controller/src/processor/remove_liquidity.rs:30-123, 142-144 *)
Definition process_remove_liquidity (E : Env) (w : World) (accs : list Meta)
  (a : RemoveLiquidityArgs) : res World :=
  guard (negb (rl_lp_token_amount a =? 0)) (Ctl ZeroValue) (
  '(A, (lst_cpi, pricing_cpi)) <-
     verify_liquidity w accs false (rl_lst_value_calc_accs a) (rl_lst_index a) ;;
  w1 <- sync_liq E w A lst_cpi (rl_lst_index a) ;;
  pool_total <- pool_field w1 (mk (la_pool_state A)) total_sol_value ;;
  lp_supply <- mint_supply w1 (mk (la_lp_token_mint A)) ;;
  lp_sol <- calc_lp_tokens_sol_value lp_supply pool_total (rl_lp_token_amount a) ;;
  after_fees <- invoke_price_lp_to_redeem E w1 pricing_cpi (mk (la_lst_mint A))
                  (rl_lp_token_amount a) lp_sol ;;
  guard (after_fees <=? lp_sol) (Ctl PoolWouldLoseSolValue) (
  '(to_user, _) <- invoke_sol_to_lst E w1 lst_cpi (mk (la_lst_mint A)) after_fees ;;
  bps <- pool_field w1 (mk (la_pool_state A)) lp_protocol_fee_bps ;;
  to_protocol <- calc_remove_liquidity_protocol_fees lp_sol after_fees to_user bps ;;
  guard (negb (to_user =? 0)) (Ctl ZeroValue) (
  guard (rl_min_lst_out a <=? to_user) (Ctl SlippageToleranceExceeded) (
  w2 <- burn w1 (mk (la_lp_token_program A)) (mk (la_lp_token_mint A)) (mk (la_lp_acc A))
          (mk (la_signer A)) (is_signer (la_signer A)) (rl_lp_token_amount a) ;;
  w3 <- transfer_checked w2 (mk (la_lst_token_program A)) (mk (la_pool_reserves A))
          (mk (la_lst_acc A)) (mk (la_lst_mint A)) (mk (la_pool_state A)) true to_user ;;
  w4 <- transfer_checked w3 (mk (la_lst_token_program A)) (mk (la_pool_reserves A))
          (mk (la_protocol_fee_accumulator A)) (mk (la_lst_mint A)) (mk (la_pool_state A)) true
          to_protocol ;;
  sync_liq E w4 A lst_cpi (rl_lst_index a))))).

(* ------------------------------------------------------------------ *)
(** * LST list management *)

(** accounts_resolvers/disable_enable_lst_input.rs:32-79 *)
Definition resolve_disable_enable_lst_input (w : World) (i : Z) (pool_acc list_acc : key)
  : res (list key) :=
  check_pool_key pool_acc (
  check_list_key list_acc (
  l <- try_lst_state_list w list_acc ;;
  ls <- of_option (Ctl InvalidLstIndex) (nth_lst l i) ;;
  ps <- try_pool_state w pool_acc ;;
  Ok [admin ps; ls_mint ls; POOL_STATE_ID; LST_STATE_LIST_ID])).

(** processor/disable_lst_input.rs:18-58 ([flag] = 1) and enable_lst_input.rs:18-56 ([flag] = 0);
    instructions.rs:1800-2025, 2027-2252 *)
Definition process_set_lst_input (w : World) (accs : list Meta) (i flag : Z) : res World :=
  match accs with
  | adm :: lst_mint :: pool_state :: lst_state_list :: _ =>
    expected <- resolve_disable_enable_lst_input w i (mk pool_state) (mk lst_state_list) ;;
    verify_keys_privs [adm; lst_mint; pool_state; lst_state_list] expected
      [pool_state; lst_state_list] [adm] (
    ps <- try_pool_state w (mk pool_state) ;;
    _ <- verify_not_rebalancing_and_not_disabled ps ;;
    l <- try_lst_state_list w (mk lst_state_list) ;;
    ls <- of_option Panic (nth_lst l i) ;;
    Ok (put_list w (mk lst_state_list)
          (Some (replace_nth l (Z.to_nat i) (set_input_disabled ls flag)))))
  | _ => Err NotEnoughAccountKeys
  end.

(** accounts_resolvers/add_lst.rs:38-48, 62-112; result (keys, pool_reserves_bump,
    protocol_fee_accumulator_bump) *)
Definition resolve_add_lst (w : World) (payer calculator pool_acc lst_mint : key)
  : res (list key * (Z * Z)) :=
  check_pool_key pool_acc (
  ps <- try_pool_state w pool_acc ;;
  let '(pool_reserves, pr_bump) := find_pool_reserves_address lst_mint (w_owner w lst_mint) in
  let '(pfa, pfa_bump) := find_protocol_fee_accumulator_address lst_mint (w_owner w lst_mint) in
  Ok ([admin ps; payer; lst_mint; pool_reserves; pfa; PROTOCOL_FEE_ID; calculator; POOL_STATE_ID;
       LST_STATE_LIST_ID; ATA_PROGRAM_ID; SYSTEM_PROGRAM_ID; w_owner w lst_mint],
      (pr_bump, pfa_bump))).

(** libs/sanctum-s-common/src/token.rs:7-16 *)
Definition verify_tokenkeg_or_22_mint (w : World) (mint : key) : res unit :=
  guard (is_token_program (w_owner w mint)) InvalidData (
  _ <- mint_supply w mint ;; Ok tt).

(** processor/add_lst.rs:80-86 with libs/sanctum-s-common/src/token.rs:18-30 *)
Definition create_ata_if_not_exist (w : World) (ata wallet mint prog : key) : res World :=
  match w_tok w ata with
  | None => create_ata_account w ata wallet mint prog
  | Some t => guard (ta_owner t =? wallet) InvalidData (Ok w)
  end.

(** processor/add_lst.rs:24-78, 88-129; instructions.rs:2254-2585. The list account grows by one
    zeroed element (list_account.rs:22-51) which is then overwritten; rent is not modelled. *)
Definition process_add_lst (w : World) (accs : list Meta) : res World :=
  match accs with
  | adm :: payer :: lst_mint :: pool_reserves :: protocol_fee_accumulator ::
    protocol_fee_accumulator_auth :: calculator :: pool_state :: lst_state_list ::
    associated_token_program :: system_program :: lst_token_program :: _ =>
    '(expected, (pr_bump, pfa_bump)) <-
       resolve_add_lst w (mk payer) (mk calculator) (mk pool_state) (mk lst_mint) ;;
    verify_keys_privs
      [adm; payer; lst_mint; pool_reserves; protocol_fee_accumulator;
       protocol_fee_accumulator_auth; calculator; pool_state; lst_state_list;
       associated_token_program; system_program; lst_token_program] expected
      [payer; pool_reserves; protocol_fee_accumulator; protocol_fee_accumulator_auth;
       lst_state_list] [adm; payer] (
    _ <- verify_tokenkeg_or_22_mint w (mk lst_mint) ;;
    _ <- verify_is_program w (mk calculator) FaultySolValueCalculator ;;
    ps <- try_pool_state w (mk pool_state) ;;
    l <- try_lst_state_list w (mk lst_state_list) ;;
    guard (negb (existsb (fun ls => ls_mint ls =? mk lst_mint) l)) (Ctl DuplicateLst) (
    _ <- verify_not_rebalancing_and_not_disabled ps ;;
    w1 <- create_ata_if_not_exist w (mk pool_reserves) (mk pool_state) (mk lst_mint)
            (mk lst_token_program) ;;
    w2 <- create_ata_if_not_exist w1 (mk protocol_fee_accumulator)
            (mk protocol_fee_accumulator_auth) (mk lst_mint) (mk lst_token_program) ;;
    l2 <- try_lst_state_list w2 (mk lst_state_list) ;;
    Ok (put_list w2 (mk lst_state_list)
          (Some (l2 ++ [mkLst 0 pr_bump pfa_bump 0 (mk lst_mint) (mk calculator)])))))
  | _ => Err NotEnoughAccountKeys
  end.

(** accounts_resolvers/remove_lst.rs:33-70 *)
Definition resolve_remove_lst (w : World) (i : Z) (refund_rent_to pool_acc list_acc lst_mint : key)
  : res (list key) :=
  check_pool_key pool_acc (
  check_list_key list_acc (
  l <- try_lst_state_list w list_acc ;;
  ls <- try_match_lst_mint_on_list lst_mint l i ;;
  pool_reserves <- create_pool_reserves_address ls (w_owner w lst_mint) ;;
  pfa <- create_protocol_fee_accumulator_address ls (w_owner w lst_mint) ;;
  ps <- try_pool_state w pool_acc ;;
  Ok [admin ps; refund_rent_to; lst_mint; pool_reserves; pfa; PROTOCOL_FEE_ID; POOL_STATE_ID;
      LST_STATE_LIST_ID; w_owner w lst_mint])).

(** processor/remove_lst.rs:25-94; list_account.rs:64-112 at the level of elements (byte level in
    Serde.v); instructions.rs:2587-2891 *)
Definition process_remove_lst (w : World) (accs : list Meta) (i : Z) : res World :=
  match accs with
  | adm :: refund_rent_to :: lst_mint :: pool_reserves :: protocol_fee_accumulator ::
    protocol_fee_accumulator_auth :: pool_state :: lst_state_list :: lst_token_program :: _ =>
    expected <- resolve_remove_lst w i (mk refund_rent_to) (mk pool_state) (mk lst_state_list)
                  (mk lst_mint) ;;
    verify_keys_privs
      [adm; refund_rent_to; lst_mint; pool_reserves; protocol_fee_accumulator;
       protocol_fee_accumulator_auth; pool_state; lst_state_list; lst_token_program] expected
      [refund_rent_to; pool_reserves; protocol_fee_accumulator; protocol_fee_accumulator_auth;
       lst_state_list] [adm] (
    ps <- try_pool_state w (mk pool_state) ;;
    _ <- verify_not_rebalancing_and_not_disabled ps ;;
    l <- try_lst_state_list w (mk lst_state_list) ;;
    ls <- of_option Panic (nth_lst l i) ;;
    reserves_bal <- token_account_balance w (mk pool_reserves) ;;
    pfa_bal <- token_account_balance w (mk protocol_fee_accumulator) ;;
    guard ((sol_value ls =? 0) && (reserves_bal =? 0) && (pfa_bal =? 0)) (Ctl LstStillHasValue) (
    w1 <- close_token_account w (mk lst_token_program) (mk protocol_fee_accumulator)
            (mk protocol_fee_accumulator_auth) true ;;
    w2 <- close_token_account w1 (mk lst_token_program) (mk pool_reserves) (mk pool_state) true ;;
    l2 <- try_lst_state_list w2 (mk lst_state_list) ;;
    Ok (put_list w2 (mk lst_state_list) (Some (remove_nth l2 (Z.to_nat i))))))
  | _ => Err NotEnoughAccountKeys
  end.

(** accounts_resolvers/set_sol_value_calculator.rs:30-46, 65-93 *)
Definition resolve_set_sol_value_calculator (w : World) (i : Z) (pool_acc list_acc lst_mint : key)
  : res (list key) :=
  check_pool_key pool_acc (
  check_list_key list_acc (
  l <- try_lst_state_list w list_acc ;;
  ls <- try_match_lst_mint_on_list lst_mint l i ;;
  pool_reserves <- create_pool_reserves_address ls (w_owner w lst_mint) ;;
  ps <- try_pool_state w pool_acc ;;
  Ok [admin ps; ls_mint ls; POOL_STATE_ID; pool_reserves; LST_STATE_LIST_ID])).

(** processor/set_sol_value_calculator.rs:23-84; instructions.rs:2893-3132 *)
Definition process_set_sol_value_calculator (E : Env) (w : World) (accs : list Meta) (i : Z)
  : res World :=
  match accs with
  | adm :: lst_mint :: pool_state :: pool_reserves :: lst_state_list :: suffix =>
    expected <- resolve_set_sol_value_calculator w i (mk pool_state) (mk lst_state_list)
                  (mk lst_mint) ;;
    verify_keys_privs [adm; lst_mint; pool_state; pool_reserves; lst_state_list] expected
      [pool_state; lst_state_list] [adm] (
    ps <- try_pool_state w (mk pool_state) ;;
    _ <- verify_not_rebalancing_and_not_disabled ps ;;
    c <- cpi_from_suffix suffix ;;
    _ <- verify_is_program w (mk (cpi_prog c)) FaultySolValueCalculator ;;
    l <- try_lst_state_list w (mk lst_state_list) ;;
    ls <- of_option Panic (nth_lst l i) ;;
    let w1 := put_list w (mk lst_state_list)
                (Some (replace_nth l (Z.to_nat i) (set_calculator ls (mk (cpi_prog c))))) in
    sync_sol_value_unchecked E w1 (mk pool_state) (mk lst_state_list) (mk pool_reserves) c
      (mk lst_mint) i)
  | _ => Err NotEnoughAccountKeys
  end.

(* ------------------------------------------------------------------ *)
(** * Pool settings *)

(** processor/set_admin.rs:12-37; accounts_resolvers/set_admin.rs:14-41;
    instructions.rs:3134-3321 *)
Definition process_set_admin (w : World) (accs : list Meta) : res World :=
  match accs with
  | current_admin :: new_admin :: pool_state :: _ =>
    check_pool_key (mk pool_state) (
    ps <- try_pool_state w (mk pool_state) ;;
    verify_keys_privs [current_admin; new_admin; pool_state]
      [admin ps; mk new_admin; POOL_STATE_ID] [pool_state] [current_admin] (
    Ok (put_pool w (mk pool_state) (Some (set_admin_key ps (mk new_admin))))))
  | _ => Err NotEnoughAccountKeys
  end.

Definition fee_ok (o : option Z) : bool :=
  match o with None => true | Some x => x <=? BPS_DENOMINATOR end.

(** processor/set_protocol_fee.rs:16-78; accounts_resolvers/set_protocol_fee.rs:13-43;
    instructions.rs:3323-3518 *)
Definition process_set_protocol_fee (w : World) (accs : list Meta) (new_trading new_lp : option Z)
  : res World :=
  match accs with
  | adm :: pool_state :: _ =>
    check_pool_key (mk pool_state) (
    ps <- try_pool_state w (mk pool_state) ;;
    verify_keys_privs [adm; pool_state] [admin ps; POOL_STATE_ID] [pool_state] [adm] (
    _ <- verify_not_rebalancing_and_not_disabled ps ;;
    guard (fee_ok new_lp && fee_ok new_trading) (Ctl FeeTooHigh) (
    let ps1 := match new_trading with Some x => set_trading_fee ps x | None => ps end in
    let ps2 := match new_lp with Some x => set_lp_fee ps1 x | None => ps1 end in
    Ok (put_pool w (mk pool_state) (Some ps2)))))
  | _ => Err NotEnoughAccountKeys
  end.

(** processor/set_protocol_fee_beneficiary.rs:15-46;
    accounts_resolvers/set_protocol_fee_beneficiary.rs:14-48; instructions.rs:3520-3717 *)
Definition process_set_protocol_fee_beneficiary (w : World) (accs : list Meta) : res World :=
  match accs with
  | current_beneficiary :: new_beneficiary :: pool_state :: _ =>
    check_pool_key (mk pool_state) (
    ps <- try_pool_state w (mk pool_state) ;;
    verify_keys_privs [current_beneficiary; new_beneficiary; pool_state]
      [protocol_fee_beneficiary ps; mk new_beneficiary; POOL_STATE_ID] [pool_state]
      [current_beneficiary] (
    _ <- verify_not_rebalancing_and_not_disabled ps ;;
    Ok (put_pool w (mk pool_state) (Some (set_beneficiary_key ps (mk new_beneficiary))))))
  | _ => Err NotEnoughAccountKeys
  end.

(** processor/set_pricing_program.rs:15-54; accounts_resolvers/set_pricing_program.rs:14-42;
    instructions.rs:3719-3908 *)
Definition process_set_pricing_program (w : World) (accs : list Meta) : res World :=
  match accs with
  | adm :: new_pricing_program :: pool_state :: _ =>
    check_pool_key (mk pool_state) (
    ps <- try_pool_state w (mk pool_state) ;;
    verify_keys_privs [adm; new_pricing_program; pool_state]
      [admin ps; mk new_pricing_program; POOL_STATE_ID] [pool_state] [adm] (
    _ <- verify_is_program w (mk new_pricing_program) FaultyPricingProgram ;;
    _ <- verify_not_rebalancing_and_not_disabled ps ;;
    Ok (put_pool w (mk pool_state) (Some (set_pricing_key ps (mk new_pricing_program))))))
  | _ => Err NotEnoughAccountKeys
  end.

(** accounts_resolvers/withdraw_protocol_fees.rs:31-61, 93-119 *)
Definition resolve_withdraw_protocol_fees (w : World) (pool_acc withdraw_to : key)
  : res (list key) :=
  check_pool_key pool_acc (
  lst_mint <- token_account_mint w withdraw_to ;;
  let '(pfa, _) := find_protocol_fee_accumulator_address lst_mint (w_owner w withdraw_to) in
  ps <- try_pool_state w pool_acc ;;
  Ok [protocol_fee_beneficiary ps; withdraw_to; pfa; PROTOCOL_FEE_ID; w_owner w withdraw_to;
      POOL_STATE_ID; lst_mint]).

(** processor/withdraw_protocol_fees.rs:21-68; instructions.rs:3910-4191 *)
Definition process_withdraw_protocol_fees (w : World) (accs : list Meta) (amount : Z) : res World :=
  match accs with
  | beneficiary :: withdraw_to :: pfa :: pfa_auth :: token_program :: pool_state :: lst_mint :: _ =>
    expected <- resolve_withdraw_protocol_fees w (mk pool_state) (mk withdraw_to) ;;
    verify_keys_privs [beneficiary; withdraw_to; pfa; pfa_auth; token_program; pool_state; lst_mint]
      expected [withdraw_to; pfa; pfa_auth; pool_state] [beneficiary] (
    ps <- try_pool_state w (mk pool_state) ;;
    _ <- verify_not_rebalancing_and_not_disabled ps ;;
    bal <- token_account_balance w (mk pfa) ;;
    guard (amount <=? bal) (Ctl NotEnoughFees) (
    transfer_checked w (mk token_program) (mk pfa) (mk withdraw_to) (mk lst_mint) (mk pfa_auth)
      true amount))
  | _ => Err NotEnoughAccountKeys
  end.

(** processor/add_disable_pool_authority.rs:21-83;
    accounts_resolvers/add_disable_pool_authority.rs:19-35; instructions.rs:4193-4433 *)
Definition process_add_disable_pool_authority (w : World) (accs : list Meta) : res World :=
  match accs with
  | payer :: adm :: pool_state :: new_authority :: list_acc :: system_program :: _ =>
    check_pool_key (mk pool_state) (
    ps <- try_pool_state w (mk pool_state) ;;
    verify_keys_privs [payer; adm; pool_state; new_authority; list_acc; system_program]
      [mk payer; admin ps; POOL_STATE_ID; mk new_authority; DISABLE_POOL_AUTHORITY_LIST_ID;
       SYSTEM_PROGRAM_ID] [payer; list_acc] [payer; adm] (
    l <- try_disable_pool_authority_list w (mk list_acc) ;;
    guard (negb (existsb (fun k => k =? mk new_authority) l)) (Ctl DuplicateDisablePoolAuthority) (
    Ok (put_auth w (mk list_acc) (Some (l ++ [mk new_authority]))))))
  | _ => Err NotEnoughAccountKeys
  end.

(** accounts_resolvers/remove_disable_pool_authority.rs:30-51 *)
Definition resolve_remove_disable_pool_authority (w : World) (i : Z)
  (refund_rent_to signer pool_acc list_acc : key) : res (list key) :=
  check_pool_key pool_acc (
  guard (list_acc =? DISABLE_POOL_AUTHORITY_LIST_ID) (Ctl IncorrectDisablePoolAuthorityList) (
  l <- try_disable_pool_authority_list w list_acc ;;
  authority <- of_option (Ctl InvalidDisablePoolAuthorityIndex) (nth_error l (Z.to_nat i)) ;;
  Ok [refund_rent_to; signer; authority; POOL_STATE_ID; DISABLE_POOL_AUTHORITY_LIST_ID])).

(** processor/remove_disable_pool_authority.rs:20-70; instructions.rs:4435-4686 *)
Definition process_remove_disable_pool_authority (w : World) (accs : list Meta) (i : Z)
  : res World :=
  match accs with
  | refund_rent_to :: signer :: authority :: pool_state :: list_acc :: _ =>
    expected <- resolve_remove_disable_pool_authority w i (mk refund_rent_to) (mk signer)
                  (mk pool_state) (mk list_acc) ;;
    verify_keys_privs [refund_rent_to; signer; authority; pool_state; list_acc] expected
      [refund_rent_to; list_acc] [signer] (
    ps <- try_pool_state w (mk pool_state) ;;
    _ <- verify_admin_or_disable_pool_authority w (mk signer) ps (mk list_acc) ;;
    guard ((mk signer =? admin ps) || (mk signer =? mk authority))
      (Ctl UnauthorizedDisablePoolAuthoritySigner) (
    l <- try_disable_pool_authority_list w (mk list_acc) ;;
    Ok (put_auth w (mk list_acc) (Some (remove_nth l (Z.to_nat i))))))
  | _ => Err NotEnoughAccountKeys
  end.

(** processor/disable_pool.rs:16-57; accounts_resolvers/disable_pool.rs:15-36;
    instructions.rs:4688-4880 *)
Definition process_disable_pool (w : World) (accs : list Meta) : res World :=
  match accs with
  | signer :: pool_state :: list_acc :: _ =>
    verify_keys_privs [signer; pool_state; list_acc]
      [mk signer; POOL_STATE_ID; DISABLE_POOL_AUTHORITY_LIST_ID] [pool_state] [signer] (
    ps <- try_pool_state w (mk pool_state) ;;
    _ <- verify_not_rebalancing_and_not_disabled ps ;;
    _ <- verify_admin_or_disable_pool_authority w (mk signer) ps (mk list_acc) ;;
    Ok (put_pool w (mk pool_state) (Some (set_disabled ps 1))))
  | _ => Err NotEnoughAccountKeys
  end.

(** processor/enable_pool.rs:13-48; accounts_resolvers/enable_pool.rs:13-37;
    instructions.rs:4882-5054 *)
Definition process_enable_pool (w : World) (accs : list Meta) : res World :=
  match accs with
  | adm :: pool_state :: _ =>
    check_pool_key (mk pool_state) (
    ps <- try_pool_state w (mk pool_state) ;;
    verify_keys_privs [adm; pool_state] [admin ps; POOL_STATE_ID] [pool_state] [adm] (
    guard (negb (u8bool_is_false (is_disabled ps))) (Ctl PoolEnabled) (
    Ok (put_pool w (mk pool_state) (Some (set_disabled ps 0))))))
  | _ => Err NotEnoughAccountKeys
  end.

(** processor/set_rebalance_authority.rs:15-53;
    accounts_resolvers/set_rebalance_authority.rs:14-33; instructions.rs:5647-5841 *)
Definition process_set_rebalance_authority (w : World) (accs : list Meta) : res World :=
  match accs with
  | signer :: new_rebalance_authority :: pool_state :: _ =>
    verify_keys_privs [signer; new_rebalance_authority; pool_state]
      [mk signer; mk new_rebalance_authority; POOL_STATE_ID] [pool_state] [signer] (
    ps <- try_pool_state w (mk pool_state) ;;
    _ <- verify_not_rebalancing_and_not_disabled ps ;;
    guard ((mk signer =? admin ps) || (mk signer =? rebalance_authority ps))
      (Ctl UnauthorizedSetRebalanceAuthoritySigner) (
    Ok (put_pool w (mk pool_state) (Some (set_rebalance_auth_key ps (mk new_rebalance_authority))))))
  | _ => Err NotEnoughAccountKeys
  end.

(** processor/initialize.rs:24-115; accounts_resolvers/initialize.rs:19-32; consts.rs:11-19;
    instructions.rs:5843-6074. Creating the pool state account fails if it exists. *)
Definition process_initialize (w : World) (accs : list Meta) : res World :=
  match accs with
  | payer :: authority :: pool_state :: lp_mint :: lp_token_program :: system_program :: _ =>
    verify_keys_privs [payer; authority; pool_state; lp_mint; lp_token_program; system_program]
      [mk payer; INITIAL_AUTHORITY_ID; POOL_STATE_ID; mk lp_mint; SPL_TOKEN_ID; SYSTEM_PROGRAM_ID]
      [payer; pool_state; lp_mint] [payer; authority] (
    guard (w_owner w (mk lp_mint) =? SPL_TOKEN_ID) (Ctl IncorrectLpMintInitialization) (
    m <- of_option InvalidData (w_mint w (mk lp_mint)) ;;
    guard (m_supply m =? 0) (Ctl IncorrectLpMintInitialization) (
    guard (m_decimals m =? 9) (Ctl IncorrectLpMintInitialization) (
    guard (match w_pool w (mk pool_state) with None => true | Some _ => false end) SystemErr (
    let w1 := put_pool w (mk pool_state)
                (Some (mkPool 0 1000 1000 1 0 0 (mk authority) (mk authority) (mk authority)
                         DEFAULT_PRICING_PROGRAM (mk lp_mint))) in
    w2 <- set_mint_authority w1 (mk lp_token_program) (mk lp_mint) (mk authority)
            (is_signer authority) (mk pool_state) ;;
    set_freeze_authority w2 (mk lp_token_program) (mk lp_mint) (mk authority)
      (is_signer authority) (mk pool_state))))))
  | _ => Err NotEnoughAccountKeys
  end.

(* ------------------------------------------------------------------ *)
(** * Rebalancing *)

(** generated instructions.rs: END_REBALANCE_IX_DISCM *)
Definition END_REBALANCE_IX_DISCM : Z := 20.

(** processor/start_rebalance.rs:214-232 *)
Definition is_end_rebalance_ix (ix : TopIx) (dst_lst_mint : key) : bool :=
  match ti_data ix with
  | [] => false
  | d :: _ =>
    (d =? END_REBALANCE_IX_DISCM) && (ti_prog ix =? S_CONTROLLER_ID) &&
    match nth_error (ti_accs ix) 4 with
    | Some m => mk m =? dst_lst_mint
    | None => false
    end
  end.

(** processor/start_rebalance.rs:196-212: scan the instructions after the current one *)
Fixpoint scan_end_rebalance (ixs : list TopIx) (dst_lst_mint : key) : res unit :=
  match ixs with
  | [] => Err (Ctl NoSucceedingEndRebalance)
  | ix :: rest => if is_end_rebalance_ix ix dst_lst_mint then Ok tt
                  else scan_end_rebalance rest dst_lst_mint
  end.
Definition verify_has_succeeding_end_rebalance_ix (C : Ctx) (dst_lst_mint : key) : res unit :=
  scan_end_rebalance (skipn (S (cx_cur C)) (cx_ixs C)) dst_lst_mint.

(** accounts_resolvers/start_rebalance.rs:56-94 *)
Definition resolve_start_rebalance (w : World) (src_index dst_index : Z)
  (withdraw_to list_acc pool_acc src_mint dst_mint : key) : res (list key) :=
  check_list_key list_acc (
  check_pool_key pool_acc (
  l <- try_lst_state_list w list_acc ;;
  src <- try_match_lst_mint_on_list src_mint l src_index ;;
  src_pool_reserves <- create_pool_reserves_address src (w_owner w src_mint) ;;
  dst <- try_match_lst_mint_on_list dst_mint l dst_index ;;
  dst_pool_reserves <- create_pool_reserves_address dst (w_owner w dst_mint) ;;
  ps <- try_pool_state w pool_acc ;;
  Ok [rebalance_authority ps; POOL_STATE_ID; LST_STATE_LIST_ID; REBALANCE_RECORD_ID; ls_mint src;
      ls_mint dst; src_pool_reserves; dst_pool_reserves; withdraw_to; INSTRUCTIONS_SYSVAR_ID;
      SYSTEM_PROGRAM_ID; w_owner w src_mint])).

(** processor/start_rebalance.rs:43-194; instructions.rs:5056-5408. Allocating the record account
    fails if it already holds data; the 1-lamport move is not modelled. *)
Definition process_start_rebalance (E : Env) (C : Ctx) (w : World) (accs : list Meta)
  (a : StartRebalanceArgs) : res World :=
  match accs with
  | reb_auth :: pool_state :: lst_state_list :: rebalance_record :: src_lst_mint :: dst_lst_mint ::
    src_pool_reserves :: dst_pool_reserves :: withdraw_to :: instructions :: system_program ::
    src_lst_token_program :: suffix =>
    expected <- resolve_start_rebalance w (sr_src_lst_index a) (sr_dst_lst_index a)
                  (mk withdraw_to) (mk lst_state_list) (mk pool_state) (mk src_lst_mint)
                  (mk dst_lst_mint) ;;
    verify_keys_privs
      [reb_auth; pool_state; lst_state_list; rebalance_record; src_lst_mint; dst_lst_mint;
       src_pool_reserves; dst_pool_reserves; withdraw_to; instructions; system_program;
       src_lst_token_program] expected
      [pool_state; lst_state_list; rebalance_record; src_pool_reserves; dst_pool_reserves;
       withdraw_to] [reb_auth] (
    src_bal <- token_account_balance w (mk src_pool_reserves) ;;
    guard (sr_min_starting_src_lst a <=? src_bal) (Ctl SlippageToleranceExceeded) (
    dst_bal <- token_account_balance w (mk dst_pool_reserves) ;;
    guard (dst_bal <=? sr_max_starting_dst_lst a) (Ctl SlippageToleranceExceeded) (
    ps <- try_pool_state w (mk pool_state) ;;
    _ <- verify_not_rebalancing_and_not_disabled ps ;;
    l <- try_lst_state_list w (mk lst_state_list) ;;
    dst <- of_option Panic (nth_lst l (sr_dst_lst_index a)) ;;
    _ <- verify_lst_input_not_disabled dst ;;
    '(src_cpi, dst_cpi) <-
       verify_src_dst_lst_sol_val_calc_cpis w (mk lst_state_list) suffix (sr_src_lst_calc_accs a)
         (sr_src_lst_index a) (sr_dst_lst_index a) ;;
    _ <- verify_has_succeeding_end_rebalance_ix C (mk dst_lst_mint) ;;
    (* process_start_rebalance body *)
    w1 <- sync_sol_value_unchecked E w (mk pool_state) (mk lst_state_list) (mk src_pool_reserves)
            src_cpi (mk src_lst_mint) (sr_src_lst_index a) ;;
    w2 <- sync_sol_value_unchecked E w1 (mk pool_state) (mk lst_state_list) (mk dst_pool_reserves)
            dst_cpi (mk dst_lst_mint) (sr_dst_lst_index a) ;;
    old_total <- pool_field w2 (mk pool_state) total_sol_value ;;
    w3 <- transfer_checked w2 (mk src_lst_token_program) (mk src_pool_reserves) (mk withdraw_to)
            (mk src_lst_mint) (mk pool_state) true (sr_amount a) ;;
    w4 <- sync_sol_value_unchecked E w3 (mk pool_state) (mk lst_state_list) (mk src_pool_reserves)
            src_cpi (mk src_lst_mint) (sr_src_lst_index a) ;;
    guard (match w_rec w4 (mk rebalance_record) with None => true | Some _ => false end) SystemErr (
    let w5 := put_rec w4 (mk rebalance_record) (Some (mkRec old_total (sr_dst_lst_index a))) in
    ps5 <- try_pool_state w5 (mk pool_state) ;;
    Ok (put_pool w5 (mk pool_state) (Some (set_rebalancing ps5 1)))))))
  | _ => Err NotEnoughAccountKeys
  end.

(** accounts_resolvers/end_rebalance.rs:30-69; result (keys, dst_lst_index) *)
Definition resolve_end_rebalance (w : World) (pool_acc list_acc rec_acc dst_mint : key)
  : res (list key * Z) :=
  check_pool_key pool_acc (
  check_list_key list_acc (
  guard (rec_acc =? REBALANCE_RECORD_ID) (Ctl IncorrectRebalanceRecord) (
  ps <- try_pool_state w pool_acc ;;
  l <- try_lst_state_list w list_acc ;;
  r <- try_rebalance_record w rec_acc ;;
  dst <- try_match_lst_mint_on_list dst_mint l (dst_lst_index r) ;;
  dst_pool_reserves <- create_pool_reserves_address dst (w_owner w dst_mint) ;;
  Ok ([rebalance_authority ps; POOL_STATE_ID; LST_STATE_LIST_ID; REBALANCE_RECORD_ID; ls_mint dst;
       dst_pool_reserves], dst_lst_index r)))).

(** processor/end_rebalance.rs:25-103; instructions.rs:5410-5645 *)
Definition process_end_rebalance (E : Env) (w : World) (accs : list Meta) : res World :=
  match accs with
  | reb_auth :: pool_state :: lst_state_list :: rebalance_record :: dst_lst_mint ::
    dst_pool_reserves :: suffix =>
    '(expected, dst_index) <-
       resolve_end_rebalance w (mk pool_state) (mk lst_state_list) (mk rebalance_record)
         (mk dst_lst_mint) ;;
    verify_keys_privs
      [reb_auth; pool_state; lst_state_list; rebalance_record; dst_lst_mint; dst_pool_reserves]
      expected [pool_state; lst_state_list; rebalance_record] [reb_auth] (
    ps <- try_pool_state w (mk pool_state) ;;
    guard (u8bool_is_true (is_rebalancing ps)) (Ctl PoolNotRebalancing) (
    c <- verify_lst_sol_val_calc_cpi w (mk lst_state_list) suffix dst_index ;;
    let w1 := put_pool w (mk pool_state) (Some (set_rebalancing ps 0)) in
    r <- try_rebalance_record w1 (mk rebalance_record) ;;
    w2 <- sync_sol_value_unchecked E w1 (mk pool_state) (mk lst_state_list) (mk dst_pool_reserves)
            c (mk dst_lst_mint) dst_index ;;
    total <- pool_field w2 (mk pool_state) total_sol_value ;;
    guard (old_total_sol_value r <=? total) (Ctl PoolWouldLoseSolValue) (
    Ok (put_rec w2 (mk rebalance_record) None))))
  | _ => Err NotEnoughAccountKeys
  end.

(* ------------------------------------------------------------------ *)
(** * Dispatch — programs/s-controller/src/entrypoint.rs:14-65 (after deserialisation) *)
Definition process (E : Env) (C : Ctx) (w : World) (accs : list Meta) (ix : Ix) : res World :=
  guard (ix_wfb ix) InvalidData (
  match ix with
  | SyncSolValue i => process_sync_sol_value E w accs i
  | SwapExactIn a => process_swap_exact_in E w accs a
  | SwapExactOut a => process_swap_exact_out E w accs a
  | AddLiquidity a => process_add_liquidity E w accs a
  | RemoveLiquidity a => process_remove_liquidity E w accs a
  | DisableLstInput i => process_set_lst_input w accs i 1
  | EnableLstInput i => process_set_lst_input w accs i 0
  | AddLst => process_add_lst w accs
  | RemoveLst i => process_remove_lst w accs i
  | SetSolValueCalculator i => process_set_sol_value_calculator E w accs i
  | SetAdmin => process_set_admin w accs
  | SetProtocolFee t l => process_set_protocol_fee w accs t l
  | SetProtocolFeeBeneficiary => process_set_protocol_fee_beneficiary w accs
  | SetPricingProgram => process_set_pricing_program w accs
  | WithdrawProtocolFees a => process_withdraw_protocol_fees w accs a
  | AddDisablePoolAuthority => process_add_disable_pool_authority w accs
  | RemoveDisablePoolAuthority i => process_remove_disable_pool_authority w accs i
  | DisablePool => process_disable_pool w accs
  | EnablePool => process_enable_pool w accs
  | StartRebalance a => process_start_rebalance E C w accs a
  | EndRebalance => process_end_rebalance E w accs
  | SetRebalanceAuthority => process_set_rebalance_authority w accs
  | Initialize => process_initialize w accs
  end).

End WithDerive.
