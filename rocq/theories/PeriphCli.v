(** The command line tools of the flat-fee program's and the calculators' managers
    (cli/pricing-programs/flat-fee, cli/generic-pool-calculator). *)
From Coq Require Import ZArith List Bool.
From Verif Require Import Base Ratio State Controller Periph Client.
Import ListNotations.
Open Scope Z_scope.

(** Signing, in both tools, with the payer's and the manager's keys: they must be exactly the signers asked for, the payer
    being always one (s-cli-utils/src/lib.rs:37-98 handle_tx_full; VersionedTransaction::try_new). *)
Definition signed_by_both (payer mgr : key) (metas : list Meta) : bool :=
  forallb (fun m => negb (is_signer m) || (mk m =? payer) || (mk m =? mgr)) metas &&
  ((mgr =? payer) || existsb (fun m => is_signer m && (mk m =? mgr)) metas).

(** An account the RPC node knows. Simplification: empty accounts that hold only lamports are not modelled. *)
Definition known (pw : PWorld) (k : key) : bool :=
  negb ((powner pw k =? SYSTEM_PROGRAM_ID) && match pdata pw k with PEmpty => true | _ => false end).

(* ------------------------------------------------------------------ *)
(** * The flat-fee tool *)

(** LST symbols are taken as replaced by mints (lst_arg.rs:14-40). *)
Inductive FlatCmd :=
| FInit
| FSetManager (new_manager : key)
| FSetLpFee (lp_withdrawal_fee_bps : Z)
| FAddLst (mint : key) (input_fee_bps output_fee_bps : Z)
| FRemoveLst (mint refund_rent_to : key)
| FSetLstFee (mint : key) (input_fee_bps output_fee_bps : Z).

Section Flat.
Context (R : RatioLib) (F : FlatCfg).

(** subcmd/common.rs:13-22 verify_manager: the tool exits. Every way the tool ends early is [Err Panic]. *)
Definition flat_verify_manager (st : key * Z) (mgr : key) : res unit := guard (fst st =? mgr) Panic (Ok tt).

(** Clients of flat_fee_interface (generated instructions.rs: the account flags) over the resolvers of
    flat-fee-lib/src/account_resolvers/{initialize,set_manager,set_lp_withdrawal_fee,add_lst,remove_lst,set_lst_fee}.rs *)
Definition flat_initialize_metas (payer : key) : list Meta := [sgw payer; wr (ff_state F); Client.ro SYSTEM_PROGRAM_ID].
Definition flat_set_manager_metas (mgr new : key) : list Meta := [sg mgr; Client.ro new; wr (ff_state F)].
Definition flat_set_lp_fee_metas (mgr : key) : list Meta := [sg mgr; wr (ff_state F)].
Definition flat_add_lst_metas (mgr payer m : key) : list Meta :=
  [sg mgr; sgw payer; wr (fst (fd_find F m)); Client.ro m; Client.ro (ff_state F); Client.ro SYSTEM_PROGRAM_ID].
Definition flat_remove_lst_metas (mgr refund m : key) : list Meta :=
  [sg mgr; wr refund; wr (fst (fd_find F m)); Client.ro m; Client.ro (ff_state F)].
Definition flat_set_lst_fee_metas (mgr fee_acc : key) : list Meta := [sg mgr; wr fee_acc; Client.ro (ff_state F)].

(** What the tool sends. The program is the one configured (--program default). *)
Definition flat_plan (pw : PWorld) (payer mgr : key) (c : FlatCmd) : res (list Meta * FlatIx) :=
  match c with
  | FInit => (* initialize.rs:13-56: an initialised state is only printed *)
      guard (negb (known pw (ff_state F))) Panic (Ok (flat_initialize_metas payer, FlatInitialize))
  | FSetManager new => (* set_manager.rs:24-68 *)
      st <- try_program_state pw (ff_state F) ;; _ <- flat_verify_manager st mgr ;;
      Ok (flat_set_manager_metas (fst st) new, FlatSetManager)
  | FSetLpFee bps => (* set_lp_withdrawal_fee.rs:25-77 *)
      st <- try_program_state pw (ff_state F) ;; _ <- flat_verify_manager st mgr ;;
      Ok (flat_set_lp_fee_metas (fst st), SetLpWithdrawalFee bps)
  | FAddLst m i o => (* add_lst.rs:37-94 *)
      st <- try_program_state pw (ff_state F) ;; _ <- flat_verify_manager st mgr ;;
      Ok (flat_add_lst_metas (fst st) payer m, FlatAddLst i o)
  | FRemoveLst m refund => (* remove_lst.rs:31-86 *)
      st <- try_program_state pw (ff_state F) ;; _ <- flat_verify_manager st mgr ;;
      Ok (flat_remove_lst_metas (fst st) refund m, FlatRemoveLst)
  | FSetLstFee m i o => (* set_lst_fee.rs:37-93 *)
      st <- try_program_state pw (ff_state F) ;; _ <- flat_verify_manager st mgr ;;
      Ok (flat_set_lst_fee_metas (fst st) (fst (fd_find F m)), SetLstFee i o)
  end.
Definition flat_command (pw : PWorld) (payer mgr : key) (c : FlatCmd) : res PWorld :=
  '(metas, ix) <- flat_plan pw payer mgr c ;;
  guard (signed_by_both payer (match c with FInit => payer | _ => mgr end) metas) Panic ('(pw', _) <- flat_process R F pw metas ix ;; Ok pw').

(** batch_set_fees.rs:43-122: the transaction printed, for the manager (a multisig) to run. [listed]: the accounts the
    RPC node lists as the program's, in the order it gives them. *)
Fixpoint batch_todo (pw : PWorld) (i o : Z) (ks : list key) : res (list key) :=
  match ks with
  | [] => Ok []
  | k :: t =>
      fa <- map_err Panic (try_fee_account pw k) ;; rest <- batch_todo pw i o t ;;
      Ok (if (snd (fst fa) =? i) && (snd fa =? o) then rest else k :: rest)
  end.
Definition batch_set_fees (pw : PWorld) (listed : list key) (i o : Z) : res (list (list Meta * FlatIx)) :=
  guard (existsb (fun k => k =? ff_state F) listed) Panic (
  st <- map_err Panic (try_program_state pw (ff_state F)) ;;
  todo <- batch_todo pw i o (filter (fun k => negb (k =? ff_state F)) listed) ;;
  Ok (map (fun k => (flat_set_lst_fee_metas (fst st) k, SetLstFee i o)) todo)).
(** A transaction of flat-fee instructions, all or nothing. *)
Fixpoint flat_run (pw : PWorld) (ixs : list (list Meta * FlatIx)) : res PWorld :=
  match ixs with
  | [] => Ok pw
  | (metas, ix) :: t => '(pw', _) <- flat_process R F pw metas ix ;; flat_run pw' t
  end.

(** price_exact_in.rs:44-87, price_exact_out.rs (alike), price_lp_tokens_to_redeem.rs, common.rs:24-56: simulated, and the
    returned SOL value printed *)
Definition show {A} (m : res (PWorld * option A)) : option A := match m with Ok (_, r) => r | Err _ => None end.
Definition flat_price_metas (inp out : key) : list Meta :=
  [Client.ro inp; Client.ro out; Client.ro (fst (fd_find F inp)); Client.ro (fst (fd_find F out))].
Definition cli_price_exact_in (pw : PWorld) (inp out : key) (amount v : Z) : option Z :=
  show (flat_process R F pw (flat_price_metas inp out) (PriceExactIn amount v)).
Definition cli_price_exact_out (pw : PWorld) (inp out : key) (amount v : Z) : option Z :=
  show (flat_process R F pw (flat_price_metas inp out) (PriceExactOut amount v)).
Definition cli_price_redeem (pw : PWorld) (out : key) (amount v : Z) : option Z :=
  show (flat_process R F pw [Client.ro out; Client.ro (ff_state F)] (PriceLpTokensToRedeem amount v)).
End Flat.

(* ------------------------------------------------------------------ *)
(** * The calculators' tool *)
Inductive CalcCmd := CCInit | CCSetManager (new_manager : key) | CCUpdateSlot (pool_program : key).

Section Calc.
Context (R : RatioLib) (cfg : CalcCfg).
(** The upgradeable loader's derivation of a program's data address. *)
Context (loader_pda : key -> key).

(** update_last_upgrade_slot.rs:61-113 goes on even when the slot is up to date *)
Definition calc_plan (pw : PWorld) (payer mgr : key) (c : CalcCmd) : res (list Meta * CalcIx) :=
  match c with
  | CCInit => (* init.rs:16-56 *)
      guard (negb (known pw (cc_state cfg))) Panic (
      Ok ([sgw payer; wr (cc_state cfg); Client.ro SYSTEM_PROGRAM_ID], CalcInit))
  | CCSetManager new => (* set_manager.rs:25-70 *)
      st <- try_calculator_state pw (cc_state cfg) ;; _ <- guard (fst st =? mgr) Panic (Ok tt) ;;
      Ok ([sg (fst st); Client.ro new; wr (cc_state cfg)], CalcSetManager)
  | CCUpdateSlot pool_program => (* update_last_upgrade_slot.rs:40-113 *)
      st <- try_calculator_state pw (cc_state cfg) ;; _ <- guard (fst st =? mgr) Panic (Ok tt) ;;
      _ <- read_stake_pool_progdata_meta pw (loader_pda pool_program) ;;
      Ok ([sg mgr; wr (cc_state cfg); Client.ro pool_program; Client.ro (loader_pda pool_program)], UpdateLastUpgradeSlot)
  end.
Definition calc_command (pw : PWorld) (payer mgr : key) (c : CalcCmd) : res PWorld :=
  '(metas, ix) <- calc_plan pw payer mgr c ;;
  guard (signed_by_both payer (match c with CCInit => payer | _ => mgr end) metas) Panic ('(pw', _) <- calc_process R cfg pw metas ix ;; Ok pw').
End Calc.
