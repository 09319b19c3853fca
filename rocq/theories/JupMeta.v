(** Model of the swap descriptions and account lists libs/s-jup-interface gives to Jupiter
    (get_swap_and_account_metas), for the main deployment. *)
From Coq Require Import ZArith List Bool.
From Verif Require Import Base Ratio State Controller Periph Deploy Client Known Jup.
Import ListNotations.
Open Scope Z_scope.

(** jupiter_amm_interface::Swap, the three variants used *)
Inductive JupSwap :=
| SanctumS (src_lst_value_calc_accs dst_lst_value_calc_accs src_lst_index dst_lst_index : Z)
| SanctumSAddLiquidity (lst_value_calc_accs lst_index : Z)
| SanctumSRemoveLiquidity (lst_value_calc_accs lst_index : Z).

Section WithDeploy.
Variable dp : Deploy.
Variable D : Derive.

(** core/swap_exact_in.rs:186-282. The pricing group is headed by the cached pricing program's own id. *)
Definition swap_exact_in_swap_and_account_metas (S : SPool) (p : SwapParams) : res (JupSwap * list Meta) :=
  '(_, sld) <- find_ready_lst S (p_source_mint p) ;;
  '(_, dld) <- find_ready_lst S (p_destination_mint p) ;;
  '(keys, (i, j), progs) <- client_swap_keys D (jp_view S) (p_authority p) (p_source_token_account p)
      (p_destination_token_account p) (p_source_mint p) (p_destination_mint p) LST_STATE_LIST_ID ;;
  '(g, (ns, nd)) <- extend_with_src_dst (kn_ix_accounts dp (ld_calc sld)) (kn_ix_accounts dp (ld_calc dld)) progs ;;
  pp <- jp_pricing_prog S ;;
  price_accs <- kf_swap_accounts dp pp (p_source_mint p) (p_destination_mint p) ;;
  gp <- extend_with_price_swap price_accs (ff_id (dp_flat dp)) ;;
  i <- index_to_u32 i ;;
  j <- index_to_u32 j ;;
  Ok (SanctumS ns nd i j, ro S_CONTROLLER_ID :: keys ++ g ++ gp).

(** core/swap_exact_out.rs:156-250. It differs only in the generated instruction the keys are turned into
    metas by, whose metas are the same (Client.v, client_swap_keys), and in asking for the pricing accounts of
    exact-out swaps, which are the same too (flat_fee.rs:217-277). *)
Definition swap_exact_out_swap_and_account_metas : SPool -> SwapParams -> res (JupSwap * list Meta) :=
  swap_exact_in_swap_and_account_metas.

(** The account keys of both liquidity instructions — accounts_resolvers/add_liquidity.rs:78-178,
    remove_liquidity.rs:78-178 (as in Client.v, client_liquidity): the metas, the LST's index, and the
    programs called. *)
Definition liquidity_keys (V : World) (signer lst_acc lp_acc mint : key) : res (list Meta * Z * (key * key)) :=
  l <- try_lst_state_list V LST_STATE_LIST_ID ;;
  '(i, ls) <- try_find_lst_mint_on_list mint l ;;
  reserves <- create_pool_reserves_address D ls (w_owner V mint) ;;
  pfa <- create_protocol_fee_accumulator_address D ls (w_owner V mint) ;;
  ps <- try_pool_state V POOL_STATE_ID ;;
  Ok ([sg signer; ro mint; wr lst_acc; wr lp_acc; wr (lp_token_mint ps); wr pfa;
       ro (w_owner V mint); ro SPL_TOKEN_ID; wr POOL_STATE_ID; wr LST_STATE_LIST_ID; wr reserves],
      i, (sol_value_calculator ls, pricing_program ps)).
Definition liquidity_metas (S : SPool) (signer lst_acc lp_acc mint : key) (ld : LstData)
  (price_accs : list Meta) (mkswap : Z -> Z -> JupSwap) : res (JupSwap * list Meta) :=
  '(keys, i, (calc, pricing)) <- liquidity_keys (jp_view S) signer lst_acc lp_acc mint ;;
  '(g, n) <- extend_with_calc (kn_ix_accounts dp (ld_calc ld)) calc ;;
  _ <- jp_pricing_prog S ;;
  '(gp, _) <- extend_with_calc price_accs pricing ;;
  i <- index_to_u32 i ;;
  Ok (mkswap n i, ro S_CONTROLLER_ID :: keys ++ g ++ gp).
(** core/add_liquidity.rs:143-205 *)
Definition add_liquidity_swap_and_account_metas (S : SPool) (p : SwapParams) : res (JupSwap * list Meta) :=
  '(_, sld) <- find_ready_lst S (p_source_mint p) ;;
  liquidity_metas S (p_authority p) (p_source_token_account p) (p_destination_token_account p) (p_source_mint p)
    sld (kf_mint_accounts (p_source_mint p)) SanctumSAddLiquidity.
(** core/remove_liquidity.rs:163-226. The pricing accounts are asked for the source mint, the LP token, not
    for the LST redeemed. *)
Definition remove_liquidity_swap_and_account_metas (S : SPool) (p : SwapParams) : res (JupSwap * list Meta) :=
  '(_, dld) <- find_ready_lst S (p_destination_mint p) ;;
  liquidity_metas S (p_authority p) (p_destination_token_account p) (p_source_token_account p)
    (p_destination_mint p) dld (kf_redeem_accounts dp (p_source_mint p)) SanctumSRemoveLiquidity.

(** core/mod.rs:66-84, jup_interface.rs:86-91 *)
Definition get_swap_and_account_metas (S : SPool) (p : SwapParams) : res (JupSwap * list Meta) :=
  ps <- jp_pool_state S ;;
  let lp := lp_token_mint ps in
  if p_source_mint p =? lp then remove_liquidity_swap_and_account_metas S p
  else if p_destination_mint p =? lp then add_liquidity_swap_and_account_metas S p
  else if p_in_amount p =? 0 then swap_exact_out_swap_and_account_metas S p
  else swap_exact_in_swap_and_account_metas S p.

End WithDeploy.
