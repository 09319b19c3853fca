(** Model of the client side of libs/s-controller-lib: the account resolvers "suitable for use on client
    side" (src/accounts_resolvers) and the instruction builders (src/instructions), with the generated
    [*Keys] -> [AccountMeta] conversions and argument encodings
    (generated/s_controller_interface/src/instructions.rs).

    A client works on a view [V] of the accounts it has fetched. A built instruction is a [TopIx]:
    program id, account metas, data bytes. Only the variants for the main program id are modelled (the
    [*_for_prog] variants, for other deployments of the program, are not). *)
From Coq Require Import ZArith List Bool.
From Verif Require Import Base State Controller Serde.
Import ListNotations.
Open Scope Z_scope.

(** AccountMeta { pubkey, is_signer, is_writable } *)
Definition ro (k : key) : Meta := mkMeta k false false.
Definition wr (k : key) : Meta := mkMeta k false true.
Definition sg (k : key) : Meta := mkMeta k true false.
Definition sgw (k : key) : Meta := mkMeta k true true.

(** The generated [*_ix] constructors: metas of the keys, then discriminant and arguments
    (e.g. instructions.rs:321-338). *)
Definition built (metas : list Meta) (ix : Ix) : TopIx := mkTop S_CONTROLLER_ID metas (enc_ix ix).

(** libs/s-controller-lib/src/lst_state_list.rs:20-29 *)
Fixpoint find_lst_from (i : Z) (mint : key) (l : list LstState) : res (Z * LstState) :=
  match l with
  | [] => Err (Ctl InvalidLstIndex)
  | ls :: t => if ls_mint ls =? mint then Ok (i, ls) else find_lst_from (i + 1) mint t
  end.
Definition try_find_lst_mint_on_list (mint : key) (l : list LstState) : res (Z * LstState) :=
  find_lst_from 0 mint l.

(** instructions/utils.rs:247-252 *)
Definition index_to_u32 (i : Z) : res Z := guard (u32b i) (Ctl IndexTooLarge) (Ok i).

Definition len (l : list Meta) : Z := Z.of_nat (length l).

(** instructions/utils.rs:102-131; the price-LP variant :165-193 is the same. Result: the accounts
    added, and the count reported. The error is what every caller maps it to (SControllerError::MathError). *)
Definition extend_with_calc (accs : list Meta) (prog : key) : res (list Meta * Z) :=
  guard (len accs <=? U8_MAX) (Ctl MathError) (Ok (ro prog :: skipn 1 accs, len accs)).

(** instructions/utils.rs:195-231 *)
Definition extend_with_price_swap (accs : list Meta) (prog : key) : res (list Meta) :=
  guard ((1 <=? len accs) && (len accs - 1 <=? U8_MAX)) (Ctl MathError) (Ok (ro prog :: skipn 2 accs)).

Section WithDerive.
Variable D : Derive.

(* ------------------------------------------------------------------ *)
(** * Sync — accounts_resolvers/sync_sol_value.rs:45-109, instructions/sync_sol_value.rs:16-64;
    metas instructions.rs:221-247 *)
Definition client_sync (V : World) (list_acc mint : key) (calc_accs : list Meta) : res TopIx :=
  l <- try_lst_state_list V list_acc ;;
  '(i, ls) <- try_find_lst_mint_on_list mint l ;;
  reserves <- create_pool_reserves_address D ls (w_owner V mint) ;;
  i <- index_to_u32 i ;;
  '(g, _) <- extend_with_calc calc_accs (sol_value_calculator ls) ;;
  Ok (built ([ro mint; wr POOL_STATE_ID; wr LST_STATE_LIST_ID; ro reserves] ++ g) (SyncSolValue i)).

(* ------------------------------------------------------------------ *)
(** * Swaps — accounts_resolvers/swap.rs:135-392; metas instructions.rs:477-543, 834-900 *)
Definition client_swap_keys (V : World) (signer src_acc dst_acc src_mint dst_mint list_acc : key)
  : res (list Meta * (Z * Z) * (key * key)) :=
  l <- try_lst_state_list V list_acc ;;
  '(i, src) <- try_find_lst_mint_on_list src_mint l ;;
  src_reserves <- create_pool_reserves_address D src (w_owner V src_mint) ;;
  '(j, dst) <- try_find_lst_mint_on_list dst_mint l ;;
  dst_reserves <- create_pool_reserves_address D dst (w_owner V dst_mint) ;;
  pfa <- create_protocol_fee_accumulator_address D dst (w_owner V dst_mint) ;;
  Ok ([sg signer; ro src_mint; ro dst_mint; wr src_acc; wr dst_acc; wr pfa; ro (w_owner V src_mint);
       ro (w_owner V dst_mint); wr POOL_STATE_ID; wr LST_STATE_LIST_ID; wr src_reserves;
       wr dst_reserves], (i, j), (sol_value_calculator src, sol_value_calculator dst)).

(** instructions/utils.rs:133-163 *)
Definition extend_with_src_dst (src_accs dst_accs : list Meta) (progs : key * key)
  : res (list Meta * (Z * Z)) :=
  '(gs, ns) <- extend_with_calc src_accs (fst progs) ;;
  '(gd, nd) <- extend_with_calc dst_accs (snd progs) ;;
  Ok (gs ++ gd, (ns, nd)).

(** instructions/swap_exact_in.rs:27-142 *)
Definition client_swap_exact_in (V : World) (signer src_acc dst_acc src_mint dst_mint list_acc : key)
  (min_amount_out amount : Z) (src_accs dst_accs price_accs : list Meta) (price_prog : key) : res TopIx :=
  '(keys, (i, j), progs) <- client_swap_keys V signer src_acc dst_acc src_mint dst_mint list_acc ;;
  i <- index_to_u32 i ;;
  j <- index_to_u32 j ;;
  '(g, (ns, nd)) <- extend_with_src_dst src_accs dst_accs progs ;;
  gp <- extend_with_price_swap price_accs price_prog ;;
  Ok (built (keys ++ g ++ gp) (SwapExactIn (mkSwapIn ns nd i j min_amount_out amount))).

(** instructions/swap_exact_out.rs:27-142 *)
Definition client_swap_exact_out (V : World) (signer src_acc dst_acc src_mint dst_mint list_acc : key)
  (max_amount_in amount : Z) (src_accs dst_accs price_accs : list Meta) (price_prog : key) : res TopIx :=
  '(keys, (i, j), progs) <- client_swap_keys V signer src_acc dst_acc src_mint dst_mint list_acc ;;
  i <- index_to_u32 i ;;
  j <- index_to_u32 j ;;
  '(g, (ns, nd)) <- extend_with_src_dst src_accs dst_accs progs ;;
  gp <- extend_with_price_swap price_accs price_prog ;;
  Ok (built (keys ++ g ++ gp) (SwapExactOut (mkSwapOut ns nd i j max_amount_in amount))).

(* ------------------------------------------------------------------ *)
(** * Liquidity — accounts_resolvers/add_liquidity.rs:78-178, remove_liquidity.rs:78-178;
    instructions/add_liquidity.rs:26-102, remove_liquidity.rs:26-103;
    metas instructions.rs:1190-1251, 1529-1590. The order of the two user accounts is the account order
    (LST account, LP account) of both instructions. *)
Definition client_liquidity (V : World) (signer lst_acc lp_acc pool_acc list_acc mint : key)
  (calc_accs price_accs : list Meta) (mkix : Z -> Z -> Ix) : res TopIx :=
  l <- try_lst_state_list V list_acc ;;
  '(i, ls) <- try_find_lst_mint_on_list mint l ;;
  reserves <- create_pool_reserves_address D ls (w_owner V mint) ;;
  pfa <- create_protocol_fee_accumulator_address D ls (w_owner V mint) ;;
  ps <- try_pool_state V pool_acc ;;
  i <- index_to_u32 i ;;
  '(g, n) <- extend_with_calc calc_accs (sol_value_calculator ls) ;;
  '(gp, _) <- extend_with_calc price_accs (pricing_program ps) ;;
  Ok (built ([sg signer; ro mint; wr lst_acc; wr lp_acc; wr (lp_token_mint ps); wr pfa;
              ro (w_owner V mint); ro SPL_TOKEN_ID; wr POOL_STATE_ID; wr LST_STATE_LIST_ID;
              wr reserves] ++ g ++ gp) (mkix n i)).
Definition client_add_liquidity (V : World) (signer src_lst_acc dst_lp_acc pool_acc list_acc mint : key)
  (lst_amount min_lp_out : Z) (calc_accs price_accs : list Meta) : res TopIx :=
  client_liquidity V signer src_lst_acc dst_lp_acc pool_acc list_acc mint calc_accs price_accs
    (fun n i => AddLiquidity (mkAddLiq n i lst_amount min_lp_out)).
Definition client_remove_liquidity (V : World) (signer dst_lst_acc src_lp_acc pool_acc list_acc mint : key)
  (lp_token_amount min_lst_out : Z) (calc_accs price_accs : list Meta) : res TopIx :=
  client_liquidity V signer dst_lst_acc src_lp_acc pool_acc list_acc mint calc_accs price_accs
    (fun n i => RemoveLiquidity (mkRemLiq n i lp_token_amount min_lst_out)).

(* ------------------------------------------------------------------ *)
(** * List management *)

(** accounts_resolvers/disable_enable_lst_input.rs:82-187; instructions/disable_enable_lst_input.rs:9-25;
    metas instructions.rs:1833-1858, 2060-2085 *)
Definition client_set_lst_input (V : World) (pool_acc list_acc mint : key) (mkix : Z -> Ix) : res TopIx :=
  l <- try_lst_state_list V list_acc ;;
  '(i, ls) <- try_find_lst_mint_on_list mint l ;;
  ps <- try_pool_state V pool_acc ;;
  i <- index_to_u32 i ;;
  Ok (built [sg (admin ps); ro (ls_mint ls); wr POOL_STATE_ID; wr LST_STATE_LIST_ID] (mkix i)).
Definition client_disable_lst_input (V : World) (pool_acc list_acc mint : key) : res TopIx :=
  client_set_lst_input V pool_acc list_acc mint DisableLstInput.
Definition client_enable_lst_input (V : World) (pool_acc list_acc mint : key) : res TopIx :=
  client_set_lst_input V pool_acc list_acc mint EnableLstInput.

(** accounts_resolvers/add_lst.rs:29-48, 62-112 with the generated add_lst_ix; metas
    instructions.rs:2327-2393 *)
Definition client_add_lst (V : World) (payer calculator pool_acc mint : key) : res TopIx :=
  guard (pool_acc =? POOL_STATE_ID) (Ctl IncorrectPoolState) (
  ps <- try_pool_state V pool_acc ;;
  Ok (built [sg (admin ps); sgw payer; ro mint; wr (fst (find_pool_reserves_address D mint (w_owner V mint)));
             wr (fst (find_protocol_fee_accumulator_address D mint (w_owner V mint))); wr PROTOCOL_FEE_ID;
             ro calculator; ro POOL_STATE_ID; wr LST_STATE_LIST_ID; ro ATA_PROGRAM_ID;
             ro SYSTEM_PROGRAM_ID; ro (w_owner V mint)] AddLst)).

(** accounts_resolvers/remove_lst.rs:73-164 with the generated remove_lst_ix; metas
    instructions.rs:2645-2696. The index conversion error is MathError here. *)
Definition client_remove_lst (V : World) (refund_rent_to pool_acc list_acc mint : key) : res TopIx :=
  l <- try_lst_state_list V list_acc ;;
  '(i, ls) <- try_find_lst_mint_on_list mint l ;;
  reserves <- create_pool_reserves_address D ls (w_owner V mint) ;;
  pfa <- create_protocol_fee_accumulator_address D ls (w_owner V mint) ;;
  ps <- try_pool_state V pool_acc ;;
  guard (u32b i) (Ctl MathError) (
  Ok (built [sg (admin ps); wr refund_rent_to; ro mint; wr reserves; wr pfa; wr PROTOCOL_FEE_ID;
             ro POOL_STATE_ID; wr LST_STATE_LIST_ID; ro (w_owner V mint)] (RemoveLst i))).

(** accounts_resolvers/set_sol_value_calculator.rs:96-161; instructions/set_sol_value_calculator.rs:16-51;
    metas instructions.rs:2931-2961 *)
Definition client_set_sol_value_calculator (V : World) (pool_acc list_acc mint : key)
  (calc_accs : list Meta) (calculator : key) : res TopIx :=
  l <- try_lst_state_list V list_acc ;;
  '(i, ls) <- try_find_lst_mint_on_list mint l ;;
  reserves <- create_pool_reserves_address D ls (w_owner V mint) ;;
  ps <- try_pool_state V pool_acc ;;
  i <- index_to_u32 i ;;
  '(g, _) <- extend_with_calc calc_accs calculator ;;
  Ok (built ([sg (admin ps); ro (ls_mint ls); wr POOL_STATE_ID; ro reserves; wr LST_STATE_LIST_ID] ++ g)
        (SetSolValueCalculator i)).

(* ------------------------------------------------------------------ *)
(** * Pool settings: the resolvers below are the on-chain ones, applied to fetched accounts *)

(** accounts_resolvers/set_admin.rs:14-41; metas instructions.rs:3162-3182 *)
Definition client_set_admin (V : World) (new_admin pool_acc : key) : res TopIx :=
  guard (pool_acc =? POOL_STATE_ID) (Ctl IncorrectPoolState) (
  ps <- try_pool_state V pool_acc ;;
  Ok (built [sg (admin ps); ro new_admin; wr POOL_STATE_ID] SetAdmin)).
(** accounts_resolvers/set_protocol_fee.rs:9-43; metas instructions.rs:3346-3361 *)
Definition client_set_protocol_fee (V : World) (pool_acc : key) (trading lp : option Z) : res TopIx :=
  guard (pool_acc =? POOL_STATE_ID) (Ctl IncorrectPoolState) (
  ps <- try_pool_state V pool_acc ;;
  Ok (built [sg (admin ps); wr POOL_STATE_ID] (SetProtocolFee trading lp))).
(** accounts_resolvers/set_protocol_fee_beneficiary.rs:9-48; metas instructions.rs:3548-3569 *)
Definition client_set_protocol_fee_beneficiary (V : World) (new_beneficiary pool_acc : key) : res TopIx :=
  guard (pool_acc =? POOL_STATE_ID) (Ctl IncorrectPoolState) (
  ps <- try_pool_state V pool_acc ;;
  Ok (built [sg (protocol_fee_beneficiary ps); ro new_beneficiary; wr POOL_STATE_ID]
        SetProtocolFeeBeneficiary)).
(** accounts_resolvers/set_pricing_program.rs:9-42; metas instructions.rs:3747-3767 *)
Definition client_set_pricing_program (V : World) (new_pricing_program pool_acc : key) : res TopIx :=
  guard (pool_acc =? POOL_STATE_ID) (Ctl IncorrectPoolState) (
  ps <- try_pool_state V pool_acc ;;
  Ok (built [sg (admin ps); ro new_pricing_program; wr POOL_STATE_ID] SetPricingProgram)).
(** accounts_resolvers/withdraw_protocol_fees.rs:31-61 ([resolve]); metas instructions.rs:3958-3998 *)
Definition withdraw_metas (ps : PoolState) (withdraw_to pfa token_program mint : key) : list Meta :=
  [sg (protocol_fee_beneficiary ps); wr withdraw_to; wr pfa; wr PROTOCOL_FEE_ID; ro token_program;
   wr POOL_STATE_ID; ro mint].
Definition client_withdraw_protocol_fees (V : World) (pool_acc withdraw_to : key) (amount : Z) : res TopIx :=
  guard (pool_acc =? POOL_STATE_ID) (Ctl IncorrectPoolState) (
  mint <- token_account_mint V withdraw_to ;;
  ps <- try_pool_state V pool_acc ;;
  Ok (built (withdraw_metas ps withdraw_to
               (fst (find_protocol_fee_accumulator_address D mint (w_owner V withdraw_to)))
               (w_owner V withdraw_to) mint) (WithdrawProtocolFees amount))).
(** The by-mint resolver, accounts_resolvers/withdraw_protocol_fees.rs:72-119, for the main program's PDAs *)
Definition client_withdraw_protocol_fees_by_mint (V : World) (pool_acc withdraw_to mint : key) (amount : Z)
  : res TopIx :=
  ps <- try_pool_state V pool_acc ;;
  Ok (built (withdraw_metas ps withdraw_to
               (fst (find_protocol_fee_accumulator_address D mint (w_owner V mint)))
               (w_owner V mint) mint) (WithdrawProtocolFees amount)).
(** accounts_resolvers/add_disable_pool_authority.rs:19-35; metas instructions.rs:4236-4272 *)
Definition client_add_disable_pool_authority (V : World) (payer new_authority pool_acc : key) : res TopIx :=
  guard (pool_acc =? POOL_STATE_ID) (Ctl IncorrectPoolState) (
  ps <- try_pool_state V pool_acc ;;
  Ok (built [sgw payer; sg (admin ps); ro POOL_STATE_ID; ro new_authority;
             wr DISABLE_POOL_AUTHORITY_LIST_ID; ro SYSTEM_PROGRAM_ID] AddDisablePoolAuthority)).
(** accounts_resolvers/remove_disable_pool_authority.rs:53-142; metas instructions.rs:4473-4504 *)
Definition client_remove_disable_pool_authority (V : World)
  (refund_rent_to signer authority list_acc : key) : res TopIx :=
  l <- try_disable_pool_authority_list V list_acc ;;
  i <- of_option (Ctl InvalidDisablePoolAuthority) (find_key authority l) ;;
  i <- index_to_u32 (Z.of_nat i) ;;
  Ok (built [wr refund_rent_to; sg signer; ro authority; ro POOL_STATE_ID;
             wr DISABLE_POOL_AUTHORITY_LIST_ID] (RemoveDisablePoolAuthority i)).
(** accounts_resolvers/disable_pool.rs:15-36; metas instructions.rs:4716-4736 *)
Definition client_disable_pool (signer : key) : TopIx :=
  built [sg signer; wr POOL_STATE_ID; ro DISABLE_POOL_AUTHORITY_LIST_ID] DisablePool.
(** accounts_resolvers/enable_pool.rs:13-37; metas instructions.rs:4905-4920 *)
Definition client_enable_pool (V : World) (pool_acc : key) : res TopIx :=
  guard (pool_acc =? POOL_STATE_ID) (Ctl IncorrectPoolState) (
  ps <- try_pool_state V pool_acc ;;
  Ok (built [sg (admin ps); wr POOL_STATE_ID] EnablePool)).
(** accounts_resolvers/set_rebalance_authority.rs:14-33, 61-117: signed by the admin ([by_admin]) or by the
    current rebalance authority; metas instructions.rs:5675-5695 *)
Definition client_set_rebalance_authority (V : World) (new_authority pool_acc : key) (by_admin : bool)
  : res TopIx :=
  ps <- try_pool_state V pool_acc ;;
  Ok (built [sg (if by_admin then admin ps else rebalance_authority ps); ro new_authority;
             wr POOL_STATE_ID] SetRebalanceAuthority).
(** accounts_resolvers/initialize.rs:19-32; metas instructions.rs:5886-5921 *)
Definition client_initialize (payer lp_mint : key) : TopIx :=
  built [sgw payer; sg INITIAL_AUTHORITY_ID; wr POOL_STATE_ID; wr lp_mint; ro SPL_TOKEN_ID;
         ro SYSTEM_PROGRAM_ID] Initialize.

(* ------------------------------------------------------------------ *)
(** * Rebalancing *)

(** accounts_resolvers/start_rebalance.rs:97-210; instructions/start_rebalance.rs:30-110; metas
    instructions.rs:5129-5195 *)
Definition client_start_rebalance (V : World) (withdraw_to list_acc pool_acc src_mint dst_mint : key)
  (amount min_starting_src_lst max_starting_dst_lst : Z) (src_accs dst_accs : list Meta) : res TopIx :=
  l <- try_lst_state_list V list_acc ;;
  '(i, src) <- try_find_lst_mint_on_list src_mint l ;;
  src_reserves <- create_pool_reserves_address D src (w_owner V src_mint) ;;
  '(j, dst) <- try_find_lst_mint_on_list dst_mint l ;;
  dst_reserves <- create_pool_reserves_address D dst (w_owner V dst_mint) ;;
  ps <- try_pool_state V pool_acc ;;
  i <- index_to_u32 i ;;
  j <- index_to_u32 j ;;
  '(g, (ns, _)) <- extend_with_src_dst src_accs dst_accs
                     (sol_value_calculator src, sol_value_calculator dst) ;;
  Ok (built ([sg (rebalance_authority ps); wr POOL_STATE_ID; wr LST_STATE_LIST_ID;
              wr REBALANCE_RECORD_ID; ro (ls_mint src); ro (ls_mint dst); wr src_reserves;
              wr dst_reserves; wr withdraw_to; ro INSTRUCTIONS_SYSVAR_ID; ro SYSTEM_PROGRAM_ID;
              ro (w_owner V src_mint)] ++ g)
        (StartRebalance (mkStartReb ns i j amount min_starting_src_lst max_starting_dst_lst))).

(** instructions/end_rebalance.rs:44-77 with accounts_resolvers/end_rebalance.rs:72-99; metas
    instructions.rs:5453-5488 *)
Definition client_end_rebalance (start : TopIx) : res TopIx :=
  ix <- of_option InvalidData (dec_ix (ti_data start)) ;;
  match ix with
  | StartRebalance a =>
    suffix <- slice_from (ti_accs start) (12 + sr_src_lst_calc_accs a) ;;
    match ti_accs start with
    | reb_auth :: pool :: lst_list :: record :: _ :: dst_mint :: _ :: dst_reserves :: _ :: _ :: _ :: _ :: _ =>
      Ok (mkTop (ti_prog start)
            ([sg (mk reb_auth); wr (mk pool); wr (mk lst_list); wr (mk record); ro (mk dst_mint);
              ro (mk dst_reserves)] ++ suffix) (enc_ix EndRebalance))
    | _ => Err NotEnoughAccountKeys
    end
  | _ => Err InvalidData
  end.

End WithDerive.
