(** Lamports in what the command line tools send, and in the flat-fee and calculator programs. *)
From Coq Require Import ZArith List Bool.
From Verif Require Import Base Ratio State Controller Serde Client ClientSpec CliAdmin Periph PeriphCli Rent.
Import ListNotations.
Open Scope Z_scope.

Section WithRents.
Context (Rs : Rents).

(** entrypoint.rs:14-65 ([process_instruction]) with lamports *)
Definition runL (D : Derive) (E : Env) (C : Ctx) (s : World * Lam) (t : TopIx) : res (World * Lam) :=
  guard (ti_prog t =? S_CONTROLLER_ID) IncorrectProgramId (
  ix <- of_option InvalidData (dec_ix (ti_data t)) ;;
  processL Rs D E C s (ti_accs t) ix).

(** The operator's commands ([command], CliAdmin.v). The payer pays for the associated token account
    (withdraw_protocol_fees.rs:113-150); transaction fees are not modelled. *)
Definition commandL (D : Derive) (E : Env) (C : Ctx) (s : World * Lam) (payer auth : key) (c : Cmd) : res (World * Lam) :=
  '(create, t) <- plan D (fst s) payer auth c ;;
  guard (signed payer auth t) Panic (
  w1 <- match create with Some (ata, wallet, m, tp) => create_ata_account (fst s) ata wallet m tp | None => Ok (fst s) end ;;
  lam1 <- match create with Some (ata, wallet, m, tp) => create_ata_rent Rs (fst s) (snd s) payer ata tp m | None => Ok (snd s) end ;;
  runL D E C (w1, lam1) t).

(** sanctum_system_program_lib::init_rent_exempt_account_invoke_signed (external): only accounts of the system program
    can be made to pay. *)
Definition init_rent (pw : PWorld) (lam : Lam) (payer k : key) (size : Z) : res Lam :=
  guard (negb (payer =? k)) SystemErr (
  if rent_for Rs size <=? lam k then Ok lam
  else guard (powner pw payer =? SYSTEM_PROGRAM_ID) SystemErr (move lam payer k (rent_for Rs size - lam k))).

(** libs/pricing-programs/flat-fee-lib/src/lib.rs:8-9; generic-pool-calculator-lib/src/lib.rs:17 *)
Definition FLAT_STATE_SIZE : Z := 34.
Definition FEE_ACCOUNT_SIZE : Z := 6.
Definition CALCULATOR_STATE_SIZE : Z := 40.

(** programs/pricing-programs/flat-fee/src/processor/{initialize.rs:23-34, add_lst.rs:30-41, remove_lst.rs:22-25}. Closing
    an account that is not the program's goes through only when it holds nothing. *)
Definition flat_lam_step (F : FlatCfg) (pw : PWorld) (lam : Lam) (accs : list Meta) (ix : FlatIx) : res Lam :=
  match ix, accs with
  | FlatInitialize, payer :: state :: _ => init_rent pw lam (mk payer) (mk state) FLAT_STATE_SIZE
  | FlatAddLst _ _, _ :: payer :: fee_acc :: _ => init_rent pw lam (mk payer) (mk fee_acc) FEE_ACCOUNT_SIZE
  | FlatRemoveLst, _ :: refund :: fee_acc :: _ =>
      if powner pw (mk fee_acc) =? ff_id F then close_into lam (mk fee_acc) (mk refund)
      else guard (lam (mk fee_acc) =? 0) SystemErr (Ok lam)
  | _, _ => Ok lam
  end.
Definition flat_commandL (R : RatioLib) (F : FlatCfg) (s : PWorld * Lam) (payer mgr : key) (c : FlatCmd) : res (PWorld * Lam) :=
  '(metas, ix) <- flat_plan F (fst s) payer mgr c ;;
  guard (signed_by_both payer (match c with FInit => payer | _ => mgr end) metas) Panic (
  '(pw', _) <- flat_process R F (fst s) metas ix ;;
  lam' <- flat_lam_step F (fst s) (snd s) metas ix ;; Ok (pw', lam')).

(** generic-pool-calculator-onchain/src/processor/init.rs:25-36 *)
Definition calc_lam_step (pw : PWorld) (lam : Lam) (accs : list Meta) (ix : CalcIx) : res Lam :=
  match ix, accs with
  | CalcInit, payer :: state :: _ => init_rent pw lam (mk payer) (mk state) CALCULATOR_STATE_SIZE
  | _, _ => Ok lam
  end.
Definition calc_commandL (R : RatioLib) (cfg : CalcCfg) (loader_pda : key -> key) (s : PWorld * Lam) (payer mgr : key) (c : CalcCmd)
  : res (PWorld * Lam) :=
  '(metas, ix) <- calc_plan cfg loader_pda (fst s) payer mgr c ;;
  guard (signed_by_both payer (match c with CCInit => payer | _ => mgr end) metas) Panic (
  '(pw', _) <- calc_process R cfg (fst s) metas ix ;;
  lam' <- calc_lam_step (fst s) (snd s) metas ix ;; Ok (pw', lam')).
End WithRents.
