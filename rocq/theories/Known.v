(** The off-chain counterparts of the shipped programs: libs/aggregate/s-sol-val-calc-prog-aggregate
    (KnownLstSolValCalc) and libs/aggregate/s-pricing-prog-aggregate (FlatFeePricingProg). They answer from
    accounts fetched earlier. *)
From Coq Require Import ZArith List Bool.
From Verif Require Import Base Ratio State Controller Periph Deploy Client.
Import ListNotations.
Open Scope Z_scope.

(* ------------------------------------------------------------------ *)
(** * Fetched accounts *)

(** One fetched account, by what it parses as; [FBad] parses as nothing. *)
Inductive FAcc :=
| FPool (ps : PoolState) | FList (l : list LstState)
| FToken (amount : Z) | FMint (supply : Z)
| FData (d : PData) | FBad.
(** HashMap<Pubkey, account>: absent accounts are not in the map. *)
Definition AccMap := key -> option FAcc.

(* ------------------------------------------------------------------ *)
(** * SOL value calculators *)

(** Which SPL-family calculator: spl.rs, sanctum_spl.rs, sanctum_spl_multi.rs (the same code with another
    program). *)
Inductive SplWhich := SplMain | SanctumSpl | SanctumSplMulti.
(** lib.rs:26-34; the structs of lido.rs:23-27, marinade.rs:16-19, spl.rs:23-31, wsol.rs:11. [None]: not
    fetched yet. The shared epoch counter is a parameter of the functions below. *)
Inductive KnownCalc :=
| KnLido (calc : option LidoPool)
| KnMarinade (calc : option MarinadePool)
| KnSpl (which : SplWhich) (lst_mint stake_pool : key) (calc : option SplPool)
| KnWsol.

Section WithDeploy.
Variable dp : Deploy.

Definition spl_cfg (s : SplWhich) : CalcCfg :=
  match s with
  | SplMain => dp_spl dp | SanctumSpl => dp_sanctum_spl dp | SanctumSplMulti => dp_sanctum_spl_multi dp
  end.
(** The mint and state account a Lido / Marinade calculator is for. *)
Definition cfg_mint (c : CalcCfg) : key :=
  match cc_kind c with KSpl => 0 | KLido m _ | KMarinade m _ => m end.
Definition cfg_pool (c : CalcCfg) : key :=
  match cc_kind c with KSpl => 0 | KLido _ s | KMarinade _ s => s end.

(** sol_value_calculator_program_id — lido.rs:60-62, marinade.rs:38-40, spl.rs, wsol.rs:28-30 *)
Definition kn_program_id (k : KnownCalc) : key :=
  match k with
  | KnLido _ => cc_id (dp_lido dp) | KnMarinade _ => cc_id (dp_marinade dp)
  | KnSpl s _ _ _ => cc_id (spl_cfg s) | KnWsol => dp_wsol dp
  end.
(** lst_mint — lido.rs:64-66, marinade.rs:42-44, spl.rs, wsol.rs:32-34 *)
Definition kn_lst_mint (k : KnownCalc) : key :=
  match k with
  | KnLido _ => cfg_mint (dp_lido dp) | KnMarinade _ => cfg_mint (dp_marinade dp)
  | KnSpl _ m _ _ => m | KnWsol => WSOL_MINT
  end.

(** The checks before a quote — lido.rs:68-78, marinade.rs:46-56, spl.rs:93-103, wsol.rs:36-42 *)
Definition kn_calc (epoch : Z) (k : KnownCalc) : res PoolCalc :=
  match k with
  | KnLido c =>
      p <- of_option NotReady c ;;
      guard (li_computed_in_epoch p =? epoch) (Prog ExchangeRateNotUpdatedInThisEpoch) (Ok (CLido p))
  | KnMarinade c =>
      p <- of_option NotReady c ;;
      guard (negb (ma_paused p)) (Prog MarinadePaused) (
      guard (ma_withdraw_enabled p) (Prog MarinadeStakeWithdrawDisabled) (Ok (CMarinade p)))
  | KnSpl _ _ _ c =>
      p <- of_option NotReady c ;;
      guard (sp_last_update_epoch p =? epoch) (Prog PoolNotUpdated) (Ok (CSpl p))
  | KnWsol => Ok CWsol
  end.
Definition kn_lst_to_sol (epoch : Z) (k : KnownCalc) (amount : Z) : res (Z * Z) :=
  c <- kn_calc epoch k ;; calc_lst_to_sol c amount.
Definition kn_sol_to_lst (R : RatioLib) (epoch : Z) (k : KnownCalc) (amount : Z) : res (Z * Z) :=
  c <- kn_calc epoch k ;; calc_sol_to_lst R c amount.

(** ix_accounts — lido.rs:80-84, marinade.rs:58-62, spl.rs:105-112, wsol.rs:44-46;
    generic-pool-calculator-lib/src/account_resolvers/lst_sol_common.rs:42-52 *)
Definition common_metas (cfg : CalcCfg) (mint pool_state : key) : list Meta :=
  [ro mint; ro (cc_state cfg); ro pool_state; ro (cc_pool_program cfg); ro (cc_progdata cfg)].
Definition kn_ix_accounts (k : KnownCalc) : list Meta :=
  match k with
  | KnLido _ => common_metas (dp_lido dp) (cfg_mint (dp_lido dp)) (cfg_pool (dp_lido dp))
  | KnMarinade _ => common_metas (dp_marinade dp) (cfg_mint (dp_marinade dp)) (cfg_pool (dp_marinade dp))
  | KnSpl s m p _ => common_metas (spl_cfg s) m p
  | KnWsol => [ro WSOL_MINT]
  end.

(** get_accounts_to_update — lido.rs:43-45, marinade.rs:22-24, spl.rs:57-59, wsol.rs:14-16 *)
Definition kn_accounts_to_update (k : KnownCalc) : list key :=
  match k with
  | KnLido _ => [cfg_pool (dp_lido dp)] | KnMarinade _ => [cfg_pool (dp_marinade dp)]
  | KnSpl _ _ p _ => [p] | KnWsol => []
  end.

(** update — lido.rs:47-56, marinade.rs:26-35, spl.rs:61-75, wsol.rs:18-23. An account absent from the map
    changes nothing. Result: the calculator afterwards, and the error if any. (Lido and Marinade accounts
    are borsh-decoded without looking at account type or discriminant.) *)
Definition kn_update (m : AccMap) (k : KnownCalc) : KnownCalc * res unit :=
  match k with
  | KnLido _ =>
      match m (cfg_pool (dp_lido dp)) with
      | None => (k, Ok tt)
      | Some (FData (PLido p)) => (KnLido (Some p), Ok tt)
      | Some _ => (k, Err InvalidData)
      end
  | KnMarinade _ =>
      match m (cfg_pool (dp_marinade dp)) with
      | None => (k, Ok tt)
      | Some (FData (PMarinade p)) => (KnMarinade (Some p), Ok tt)
      | Some _ => (k, Err InvalidData)
      end
  | KnSpl s lst_mint addr _ =>
      match m addr with
      | None => (k, Ok tt)
      | Some (FData (PSpl p)) =>
          if negb (sp_is_stake_pool p) then (k, Err (Prog InvalidStakePoolProgramData))
          else if negb (sp_pool_mint p =? lst_mint) then (k, Err NotReady)
          else (KnSpl s lst_mint addr (Some p), Ok tt)
      | Some _ => (k, Err InvalidData)
      end
  | KnWsol => (k, Ok tt)
  end.

(* ------------------------------------------------------------------ *)
(** * The flat-fee pricing program *)

(** A fetched fee account: bump, input fee, output fee. *)
Definition FeeAcc := (Z * Z * Z)%type.
(** flat_fee.rs:24-29; the map is kept as a list of (mint, fee account) pairs; the iteration order of
    Rust's HashMap is unspecified, here it is the list's. *)
Record KnownFlat := mkFlatCache {
  kf_state : option (key * Z);
  kf_fees : list (key * option FeeAcc) }.

Let F := dp_flat dp.

Fixpoint assoc {A} (k : key) (l : list (key * A)) : option A :=
  match l with [] => None | (k', a) :: t => if k' =? k then Some a else assoc k t end.
(** flat_fee.rs:41-46 *)
Definition kf_fee_account (p : KnownFlat) (mint : key) : res FeeAcc :=
  match assoc mint (kf_fees p) with
  | Some (Some a) => Ok a | _ => Err (Prog UnsupportedLstMint)
  end.

(** flat_fee.rs:201-215 *)
Definition kf_quote_exact_in (p : KnownFlat) (i o : key) (sol_value : Z) : res Z :=
  fi <- kf_fee_account p i ;; fo <- kf_fee_account p o ;;
  calculate_price_exact_in (snd (fst fi)) (snd fo) sol_value.
(** flat_fee.rs:240-254 *)
Definition kf_quote_exact_out (R : RatioLib) (p : KnownFlat) (i o : key) (sol_value : Z) : res Z :=
  fi <- kf_fee_account p i ;; fo <- kf_fee_account p o ;;
  calculate_price_exact_out R (snd (fst fi)) (snd fo) sol_value.
(** flat_fee.rs:179-185 *)
Definition kf_quote_mint (p : KnownFlat) (sol_value : Z) : res Z := Ok sol_value.
(** flat_fee.rs:151-164 *)
Definition kf_quote_redeem (p : KnownFlat) (sol_value : Z) : res Z :=
  s <- of_option (Prog InvalidProgramStateData) (kf_state p) ;;
  calculate_price_lp_tokens_to_redeem (snd s) sol_value.

(** flat_fee.rs:217-238, 256-277: with both bumps cached the addresses are re-created from them, otherwise
    found *)
Definition kf_swap_accounts (p : KnownFlat) (i o : key) : res (list Meta) :=
  match kf_fee_account p i, kf_fee_account p o with
  | Ok fi, Ok fo =>
      a <- of_option BadSeeds (fd_create F i (fst (fst fi))) ;;
      b <- of_option BadSeeds (fd_create F o (fst (fst fo))) ;;
      Ok [ro i; ro o; ro a; ro b]
  | _, _ => Ok [ro i; ro o; ro (fst (fd_find F i)); ro (fst (fd_find F o))]
  end.
(** flat_fee.rs:187-198 *)
Definition kf_mint_accounts (m : key) : list Meta := [ro m].
(** flat_fee.rs:166-177 *)
Definition kf_redeem_accounts (m : key) : list Meta := [ro m; ro (ff_state F)].

(** flat_fee.rs:71-92 *)
Definition kf_fee_address (mint : key) (f : option FeeAcc) : key :=
  match f with
  | Some (bump, _, _) => match fd_create F mint bump with Some a => a | None => fst (fd_find F mint) end
  | None => fst (fd_find F mint)
  end.
(** traits.rs get_accounts_to_update: the state account and every fee account (flat_fee.rs:107-117) *)
Definition kf_accounts_to_update (p : KnownFlat) : list key :=
  ff_state F :: map (fun '(m, f) => kf_fee_address m f) (kf_fees p).

(** try_new, flat_fee.rs:95-106 *)
Definition kf_new (mints : list key) : KnownFlat := mkFlatCache None (map (fun m => (m, None)) mints).

(** update, flat_fee.rs:119-148; [?] stops at the first error, keeping what was done *)
Fixpoint kf_update_fees (m : AccMap) (l : list (key * option FeeAcc))
  : list (key * option FeeAcc) * res unit :=
  match l with
  | [] => ([], Ok tt)
  | (mint, f) :: t =>
      let addr := match f with
                  | Some (bump, _, _) => of_option BadSeeds (fd_create F mint bump)
                  | None => Ok (fst (fd_find F mint))
                  end in
      match addr with
      | Err e => ((mint, f) :: t, Err e)
      | Ok a =>
          match m a with
          | None => let '(t', r) := kf_update_fees m t in ((mint, f) :: t', r)
          | Some (FData (PFlatFee b i o)) =>
              let '(t', r) := kf_update_fees m t in ((mint, Some (b, i, o)) :: t', r)
          | Some _ => ((mint, f) :: t, Err (Prog UnsupportedLstMint))
          end
      end
  end.
Definition kf_update (m : AccMap) (p : KnownFlat) : KnownFlat * res unit :=
  match m (ff_state F) with
  | Some (FData (PFlatState mgr fee)) =>
      let '(fs, r) := kf_update_fees m (kf_fees p) in (mkFlatCache (Some (mgr, fee)) fs, r)
  | Some _ => (p, Err (Prog InvalidProgramStateData))
  | None => let '(fs, r) := kf_update_fees m (kf_fees p) in (mkFlatCache (kf_state p) fs, r)
  end.

End WithDeploy.
