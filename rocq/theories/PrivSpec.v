(** Specification vocabulary for the privileges instructions ask for (C59). *)
From Coq Require Import ZArith List Bool.
From Verif Require Import Base State Controller Spec Serde Client LateSpec Periph CliAdmin PeriphCli Cli.
Import ListNotations.
Open Scope Z_scope.

(** What an account is lent to an instruction with: its signature, and that it may be changed. *)
Definition lent (m : Meta) : bool * bool := (is_signer m, is_writable m).
Definition R_ := (false, false).
Definition W_ := (false, true).
Definition S_ := (true, false).
Definition SW := (true, true).

(** The accounts every instruction names first, from the programs' interface documentation. *)
Definition privileges (ix : Ix) : list (bool * bool) :=
  match ix with
  (*                                    mint, pool, list, reserves *)
  | SyncSolValue _ =>                   [R_; W_; W_; R_]
  (*                                    user, 2 mints, 2 user accounts, fee account, 2 token programs, pool, list, 2 reserves *)
  | SwapExactIn _ | SwapExactOut _ =>   [S_; R_; R_; W_; W_; W_; R_; R_; W_; W_; W_; W_]
  (*                                    user, mint, 2 user accounts, LP mint, fee account, 2 token programs, pool, list, reserves *)
  | AddLiquidity _ | RemoveLiquidity _ => [S_; R_; W_; W_; W_; W_; R_; R_; W_; W_; W_]
  (*                                    admin, mint, pool, list *)
  | DisableLstInput _ | EnableLstInput _ => [S_; R_; W_; W_]
  (*                                    admin, payer, mint, reserves, fee account, fee authority, calculator, pool, list, 3 programs *)
  | AddLst =>                           [S_; SW; R_; W_; W_; W_; R_; R_; W_; R_; R_; R_]
  (*                                    admin, refund, mint, reserves, fee account, fee authority, pool, list, program *)
  | RemoveLst _ =>                      [S_; W_; R_; W_; W_; W_; R_; W_; R_]
  (*                                    admin, mint, pool, reserves, list *)
  | SetSolValueCalculator _ =>          [S_; R_; W_; R_; W_]
  (*                                    admin, new admin, pool *)
  | SetAdmin | SetProtocolFeeBeneficiary | SetPricingProgram | SetRebalanceAuthority => [S_; R_; W_]
  | SetProtocolFee _ _ | EnablePool =>  [S_; W_]
  (*                                    beneficiary, receiver, fee account, fee authority, token program, pool, mint *)
  | WithdrawProtocolFees _ =>           [S_; W_; W_; W_; R_; W_; R_]
  (*                                    payer, admin, pool, new authority, list, system program *)
  | AddDisablePoolAuthority =>          [SW; S_; R_; R_; W_; R_]
  (*                                    refund, signer, authority, pool, list *)
  | RemoveDisablePoolAuthority _ =>     [W_; S_; R_; R_; W_]
  (*                                    signer, pool, list *)
  | DisablePool =>                      [S_; W_; R_]
  (*                                    authority, pool, list, record, 2 mints, 2 reserves, receiver, instructions, system, token program *)
  | StartRebalance _ =>                 [S_; W_; W_; W_; R_; R_; W_; W_; W_; R_; R_; R_]
  (*                                    authority, pool, list, record, mint, reserves *)
  | EndRebalance =>                     [S_; W_; W_; W_; R_; R_]
  (*                                    payer, authority, pool, LP mint, token program, system program *)
  | Initialize =>                       [SW; S_; W_; W_; R_; R_]
  end.

(** The pricing programs' and calculators' administrative instructions. *)
Definition flat_privileges (ix : FlatIx) : option (list (bool * bool)) :=
  match ix with
  | FlatInitialize =>       Some [SW; W_; R_]           (* payer, state, system program *)
  | FlatSetManager =>       Some [S_; R_; W_]           (* manager, new manager, state *)
  | SetLpWithdrawalFee _ => Some [S_; W_]               (* manager, state *)
  | FlatAddLst _ _ =>       Some [S_; SW; W_; R_; R_; R_] (* manager, payer, fee account, mint, state, system program *)
  | FlatRemoveLst =>        Some [S_; W_; W_; R_; R_]   (* manager, refund, fee account, mint, state *)
  | SetLstFee _ _ =>        Some [S_; W_; R_]           (* manager, fee account, state *)
  | _ => None
  end.
Definition calc_privileges (ix : CalcIx) : option (list (bool * bool)) :=
  match ix with
  | CalcInit =>              Some [SW; W_; R_]          (* payer, state, system program *)
  | CalcSetManager =>        Some [S_; R_; W_]          (* manager, new manager, state *)
  | UpdateLastUpgradeSlot => Some [S_; W_; R_; R_]      (* manager, state, program, program data *)
  | _ => None
  end.

(** [m] has at least the privileges [p]. *)
Definition has (m : Meta) (p : bool * bool) : Prop :=
  (fst p = true -> is_signer m = true) /\ (snd p = true -> is_writable m = true).

(** Account number [n] is passed as the same account with privileges [p]. *)
Definition lending (n : nat) (p : bool * bool) (metas : list Meta) : list Meta :=
  firstn n metas ++ match skipn n metas with m :: t => mkMeta (mk m) (fst p) (snd p) :: t | [] => [] end.
Definition lending_ix (n : nat) (p : bool * bool) (t : TopIx) : TopIx :=
  mkTop (ti_prog t) (lending n p (ti_accs t)) (ti_data t).
(** [p] lacks something that [q] has. *)
Definition lacks (p q : bool * bool) : Prop := (fst q = true /\ fst p = false) \/ (snd q = true /\ snd p = false).

(** The calculators' and pricing programs' accounts the caller supplied with a request. *)
Definition supplied (q : Request) : list Meta :=
  match q with
  | QSync _ a | QSetCalculator _ a _ => a
  | QSwapExactIn _ _ _ _ _ _ _ a b c _ | QSwapExactOut _ _ _ _ _ _ _ a b c _ => a ++ b ++ c
  | QAddLiquidity _ _ _ _ _ _ a b | QRemoveLiquidity _ _ _ _ _ _ a b | QStartRebalance _ _ _ _ _ _ a b => a ++ b
  | _ => []
  end.

(** [t] is the instruction [ix], its accounts lent as documented, and any further accounts only read. *)
Definition asks_only (t : TopIx) (ix : Ix) : Prop :=
  dec_ix (ti_data t) = Some ix /\ exists k, map lent (ti_accs t) = privileges ix ++ repeat R_ k.
Definition all_read (l : list Meta) : Prop := forall m, In m l -> lent m = R_.
(** Both instructions of a planned rebalancing. *)
Definition plan_asks (pl : Plan) : Prop := (exists a, asks_only (pl_start pl) (StartRebalance a)) /\ asks_only (pl_end pl) EndRebalance.
