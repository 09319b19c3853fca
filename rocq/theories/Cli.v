(** Model of the operator's command line tool for the pool, cli/s-controller: the commands that compute something
    before they send a transaction (rebal-sol, rebal-withdraw-sol, rebal-stake). Paths below are relative to
    cli/s-controller/src. Prompts, address lookup tables, compute budgets and RPC failures are not modelled; what
    the stake pools' SDKs quote (stakedex_reimpl/) is a parameter. *)
From Coq Require Import ZArith List Bool.
From Verif Require Import Base Ratio State Controller Periph Deploy Client Known Jup.
Import ListNotations.
Open Scope Z_scope.

(** Arithmetic of u64 in a release build (no overflow checks, Cargo.toml:26-27). *)
Definition wrapping_sub (a b : Z) : Z := (a - b) mod (U64_MAX + 1).
Definition wrapping_add (a b : Z) : Z := (a + b) mod (U64_MAX + 1).
Definition saturating_add (a b : Z) : Z := Z.min (a + b) U64_MAX.

Section WithDeploy.
Variable R : RatioLib.
Variable dp : Deploy.
Variable D : Derive.

(** common.rs:54-69 sol_val_calc_of_sanctum_lst; [None]: todo!() panics *)
Definition sol_val_calc_of_sanctum_lst (s : SanctumLst) : option key :=
  match sl_pool s with
  | PiLido => Some (cc_id (dp_lido dp)) | PiMarinade => Some (cc_id (dp_marinade dp))
  | PiReservePool => Some (dp_wsol dp)
  | PiSpl SplMain _ => Some (cc_id (dp_spl dp))
  | PiSpl SanctumSpl _ => Some (cc_id (dp_sanctum_spl dp))
  | PiSpl SanctumSplMulti _ => Some (cc_id (dp_sanctum_spl_multi dp))
  | PiSPool => None
  end.
(** common.rs:71-107 sol_value_calculator_accounts_of_sanctum_lst; lst_arg.rs:35-40 *)
Definition calc_accounts_of (s : SanctumLst) : option (list Meta) :=
  match sl_pool s with
  | PiLido => Some (common_metas (dp_lido dp) (cfg_mint (dp_lido dp)) (cfg_pool (dp_lido dp)))
  | PiMarinade => Some (common_metas (dp_marinade dp) (cfg_mint (dp_marinade dp)) (cfg_pool (dp_marinade dp)))
  | PiReservePool => Some [ro WSOL_MINT]
  | PiSpl SplMain pool => Some (common_metas (dp_spl dp) (sl_mint s) pool)
  | PiSpl SanctumSpl pool => Some (common_metas (dp_sanctum_spl dp) (sl_mint s) pool)
  | PiSpl SanctumSplMulti pool => Some (common_metas (dp_sanctum_spl_multi dp) (sl_mint s) pool)
  | PiSPool => None
  end.

(* ------------------------------------------------------------------ *)
(** * The tool's view of the chain *)

(** libs/s-jup-interface/src/update.rs:116-137 get_accounts_to_update_lsts_filtered *)
Definition accounts_to_update_filtered (S : SPool) (pick : LstState -> bool) : list key :=
  flat_map (fun '(ls, x) => if pick ls then lst_accounts_to_update dp D ls x else [])
    (combine (jp_list S) (jp_data S)).
(** rpc.rs fetch_accounts_as_map: only the accounts asked for *)
Definition only_these (ks : list key) (m : AccMap) : AccMap := fun k => if existsb (Z.eqb k) ks then m k else None.
(** subcmd/rebal_sol.rs:115-156, rebal_withdraw_sol.rs:123-162, rebal_stake.rs:124-171: pool state and list fetched,
    SPool created from them, then updated with the accounts of the LSTs [a] and [b], and whatever [more] accounts
    the stake pools' SDKs ask for; [chain] is what the RPC node answers. Any error panics. *)
Definition cli_spool (lsts : list SanctumLst) (l : list LstState) (ps : PoolState) (epoch : Z)
  (a b : key) (more : list key) (chain : AccMap) : res SPool :=
  S <- from_init_accounts dp l ps lsts epoch ;;
  let asked := accounts_to_update_filtered S (fun ls => (ls_mint ls =? a) || (ls_mint ls =? b)) ++ more in
  let '(S', r) := update_full dp D (only_these asked chain) S in
  _ <- r ;; Ok S'.

(** subcmd/rebal_sol.rs:129-137 (and the same in the two others) *)
Definition check_rebalance_auth (S : SPool) (auth : key) : res unit :=
  ps <- jp_pool_state S ;; guard (auth =? rebalance_authority ps) Panic (Ok tt).

(** What the instruction builders are given: the SPool's pool state and list, and the two mints' token programs. *)
Definition cli_view (S : SPool) (src tsrc dst tdst : key) : World :=
  mkWorld (upd (fun _ => None) POOL_STATE_ID (jp_pool S))
          (upd (fun _ => None) LST_STATE_LIST_ID (Some (jp_list S)))
          (fun _ => None) (fun _ => None) (fun _ => None) (fun _ => None)
          (fun m => if m =? src then tsrc else if m =? dst then tdst else SYSTEM_PROGRAM_ID)
          (fun _ => false).

(** The transaction to send: [pl_start], the stake pool's instructions, a transfer of [pl_subsidy] to the
    destination reserves, [pl_end]. *)
Record Plan := mkPlan { pl_start : TopIx; pl_subsidy : Z; pl_end : TopIx }.

(** rebal_sol.rs:223-253, rebal_withdraw_sol.rs:249-279, rebal_stake.rs:262-292 *)
Definition rebal_ixs (S : SPool) (withdraw_to src tsrc dst tdst : key) (amount : Z) (src_accs dst_accs : list Meta)
  : res (TopIx * TopIx) :=
  t <- client_start_rebalance D (cli_view S src tsrc dst tdst) withdraw_to LST_STATE_LIST_ID POOL_STATE_ID src dst
         amount 0 U64_MAX src_accs dst_accs ;;
  e <- client_end_rebalance t ;;
  Ok (t, e).

(** The subsidy must be there: rebal_sol.rs:200-212, rebal_withdraw_sol.rs:219-236, rebal_stake.rs:240-252;
    [avail]: the payer's balance. *)
Definition check_subsidy (subsidy avail : Z) : res unit := guard ((subsidy =? 0) || (subsidy <=? avail)) Panic (Ok tt).

(** subcmd/rebal_sol.rs:69-311. [minted]: quote_deposit_sol(lamports). *)
Definition rebal_sol (S : SPool) (auth withdraw_to : key) (lst : SanctumLst) (lamports minted avail : Z) : res Plan :=
  _ <- check_rebalance_auth S auth ;;
  '(_, ld) <- find_ready_lst S (sl_mint lst) ;;
  required <- kn_sol_to_lst R (jp_epoch S) (ld_calc ld) lamports ;;
  let subsidy := sat_sub (snd required) minted in
  _ <- check_subsidy subsidy avail ;;
  accs <- of_option Panic (calc_accounts_of lst) ;;
  '(t, e) <- rebal_ixs S withdraw_to WSOL_MINT SPL_TOKEN_ID (sl_mint lst) (sl_token_program lst) lamports
               [ro WSOL_MINT] accs ;;
  Ok (mkPlan t subsidy e).

(** subcmd/rebal_withdraw_sol.rs:82-330. [withdrawn]: quote_withdraw_sol(amt). *)
Definition rebal_withdraw_sol (S : SPool) (auth withdraw_to : key) (lst : SanctumLst) (amt withdrawn avail : Z)
  : res Plan :=
  _ <- check_rebalance_auth S auth ;;
  '(_, ld) <- find_ready_lst S (sl_mint lst) ;;
  reserves <- of_option NotReady (ld_reserves ld) ;;
  init <- kn_lst_to_sol (jp_epoch S) (ld_calc ld) reserves ;;
  aft <- kn_lst_to_sol (jp_epoch S) (ld_calc ld) (wrapping_sub reserves amt) ;;
  let required := wrapping_sub (fst init) (fst aft) in
  let subsidy := sat_sub required withdrawn in
  _ <- check_subsidy subsidy avail ;;
  accs <- of_option Panic (calc_accounts_of lst) ;;
  '(t, e) <- rebal_ixs S withdraw_to (sl_mint lst) (sl_token_program lst) WSOL_MINT SPL_TOKEN_ID amt
               accs [ro WSOL_MINT] ;;
  Ok (mkPlan t subsidy e).

(** rebal_stake.rs:199-210: the while loop, at most [fuel] rounds *)
Fixpoint raise (fuel : nat) (epoch : Z) (k : KnownCalc) (required balance : Z) : res Z :=
  v <- kn_lst_to_sol epoch k balance ;;
  if fst v <? required then
    match fuel with O => Err Panic | S f => raise f epoch k required (wrapping_add balance 1) end
  else Ok balance.

(** subcmd/rebal_stake.rs:76-393. [tokens_out]: the deposit stake quote's. *)
Definition rebal_stake (fuel : nat) (S : SPool) (auth withdraw_to : key) (from to : SanctumLst)
  (amt tokens_out avail : Z) : res Plan :=
  _ <- check_rebalance_auth S auth ;;
  ps <- jp_pool_state S ;;
  '(fls, fld) <- find_ready_lst S (sl_mint from) ;;
  '(tls, tld) <- find_ready_lst S (sl_mint to) ;;
  '(ps1, fls1, fbal) <- apply_sync_sol_value (jp_epoch S) ps fls fld ;;
  '(_, tls1, tbal) <- apply_sync_sol_value (jp_epoch S) ps1 tls tld ;;
  left <- kn_lst_to_sol (jp_epoch S) (ld_calc fld) (sat_sub fbal amt) ;;
  let from_sol_val := sat_sub (sol_value fls1) (fst left) in
  let required_to := saturating_add (sol_value tls1) from_sol_val in
  guess <- kn_sol_to_lst R (jp_epoch S) (ld_calc tld) required_to ;;
  ending <- raise fuel (jp_epoch S) (ld_calc tld) required_to (snd guess) ;;
  let required := sat_sub ending tbal in
  let subsidy := sat_sub required tokens_out in
  _ <- check_subsidy subsidy avail ;;
  faccs <- of_option Panic (calc_accounts_of from) ;;
  taccs <- of_option Panic (calc_accounts_of to) ;;
  '(t, e) <- rebal_ixs S withdraw_to (sl_mint from) (sl_token_program from) (sl_mint to) (sl_token_program to) amt
               faccs taccs ;;
  Ok (mkPlan t subsidy e).

End WithDeploy.
