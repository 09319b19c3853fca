(** Specification vocabulary for client-built instructions (C34): when a fetched view is still good, what
    the program may blame, and what a good build is. *)
From Coq Require Import ZArith List Bool.
From Verif Require Import Base State Controller Spec Serde Client.
Import ListNotations.
Open Scope Z_scope.

(* ------------------------------------------------------------------ *)
(** * Specification *)

(** Failures that blame the instruction's accounts, list positions or encoding — as opposed to the pool's
    condition (disabled, rebalancing, ...), amounts, slippage, missing funds, an external program's
    refusal, or the caller's lack of authority. *)
Definition account_fault (e : err) : bool :=
  match e with
  | NotEnoughAccountKeys | WrongAccount | PrivilegeErr | InvalidData | IncorrectProgramId | BadSeeds
  | Panic => true
  | Ctl c =>
    match c with
    | InvalidPoolStateData | InvalidLstStateListData | InvalidDisablePoolAuthorityListData
    | InvalidRebalanceRecordData | InvalidLstIndex | InvalidReserves | IncorrectSolValueCalculator
    | IncorrectLstStateList | IncorrectPoolState | IncorrectRebalanceRecord | IncorrectPricingProgram
    | IndexTooLarge | InvalidDisablePoolAuthorityIndex | IncorrectDisablePoolAuthorityList => true
    | _ => false
    end
  | _ => false
  end.
(** The program carries the instruction out, or refuses it for a reason other than its accounts. *)
Definition accepted {A} (r : res A) : Prop := match r with Ok _ => True | Err e => account_fault e = false end.

(** The on-chain program running a client's instruction in state [w]. *)
Definition run (D : Derive) (E : Env) (C : Ctx) (w : World) (t : TopIx) : res World :=
  process_instruction D E C (ti_prog t) w (ti_accs t) (ti_data t).

(** What identifies a list entry and the pool for a client: everything but recorded values and flags. *)
Definition entry_id (ls : LstState) : key * key * Z * Z :=
  (ls_mint ls, sol_value_calculator ls, pool_reserves_bump ls, protocol_fee_accumulator_bump ls).
Definition pool_id (ps : PoolState) : key * key * key * key * key :=
  (admin ps, rebalance_authority ps, protocol_fee_beneficiary ps, pricing_program ps, lp_token_mint ps).
Definition listed (w : World) (m : key) : Prop :=
  exists l ls, the_list w = Some l /\ In ls l /\ ls_mint ls = m.
(** The view [V] a client fetched is still good in state [w]: the pool's keys and the list's entries are
    the same (recorded values, fees and flags may have moved), and so are the listed mints' token programs. *)
Definition fresh (V w : World) : Prop :=
  (exists pv ps, the_pool V = Some pv /\ the_pool w = Some ps /\ pool_id pv = pool_id ps) /\
  (exists lv l, the_list V = Some lv /\ the_list w = Some l /\ map entry_id lv = map entry_id l /\
                Z.of_nat (length l) <= U32_MAX) /\
  the_authorities V = the_authorities w /\
  (forall m, listed w m -> w_owner V m = w_owner w m).

(** Position [i] of the list is the entry of mint [m], valued by [calc]. *)
Definition listed_at (w : World) (i : Z) (m calc : key) : Prop :=
  exists l ls, the_list w = Some l /\ nth_error l (Z.to_nat i) = Some ls /\ ls_mint ls = m /\
               sol_value_calculator ls = calc.
(** An account list handed to the client for an external program: it has at least the [n] mints the
    program's interface begins with, and its length fits a byte. *)
Definition suffix_ok (n : nat) (accs : list Meta) : Prop :=
  (n <= length accs)%nat /\ len accs <= U8_MAX.

(** For swap pricing the interface begins with the two mints (the count passed is the controller's own). *)
Definition pricing_accounts_ok (accs : list Meta) : Prop := (2 <= length accs)%nat /\ len accs - 1 <= U8_MAX.

(** Two environments answer alike when a calculator / the pricing program is called with these accounts. *)
Definition same_calc (E E' : Env) (prog mint : key) (accs : list Meta) : Prop :=
  forall w a, e_lst_to_sol E w prog mint accs a = e_lst_to_sol E' w prog mint accs a /\
              e_sol_to_lst E w prog mint accs a = e_sol_to_lst E' w prog mint accs a.
Definition same_price_swap (E E' : Env) (prog src dst : key) (accs : list Meta) : Prop :=
  forall w a s, e_price_exact_in E w prog src dst accs a s = e_price_exact_in E' w prog src dst accs a s /\
                e_price_exact_out E w prog src dst accs a s = e_price_exact_out E' w prog src dst accs a s.
Definition same_price_lp (E E' : Env) (prog mint : key) (accs : list Meta) : Prop :=
  forall w a s, e_price_lp_to_mint E w prog mint accs a s = e_price_lp_to_mint E' w prog mint accs a s /\
                e_price_lp_to_redeem E w prog mint accs a s = e_price_lp_to_redeem E' w prog mint accs a s.

(** A good build of instruction [ix]: the client produces an instruction for the controller whose data
    decodes to [ix], which asks only for the signatures [signers] (besides those of the [supplied]
    accounts), and which the program, in state [w], never refuses because of its accounts, indices or
    encoding — whatever the calculators and the pricing program answer. *)
Definition asks_only (t : TopIx) (signers : list key) (supplied : list Meta) : Prop :=
  forall m, In m (ti_accs t) -> is_signer m = true -> In (mk m) signers \/ In m supplied.
Definition good_build (D : Derive) (w : World) (r : res TopIx) (ix : Ix) (signers : list key)
  (supplied : list Meta) : Prop :=
  exists t, r = Ok t /\ ti_prog t = S_CONTROLLER_ID /\ dec_ix (ti_data t) = Some ix /\
            asks_only t signers supplied /\ forall E C, accepted (run D E C w t).

(** The pool is neither disabled nor being rebalanced. *)
Definition pool_active (w : World) : Prop :=
  exists ps, the_pool w = Some ps /\ is_rebalancing ps = 0 /\ is_disabled ps = 0.
(** The built instruction is carried out in state [w], whatever other programs answer. *)
Definition succeeds (D : Derive) (w : World) (r : res TopIx) : Prop :=
  exists t, r = Ok t /\ forall E C, exists w', run D E C w t = Ok w'.

(** Any number of instructions of other programs. *)
Inductive others (D : Derive) : World -> World -> Prop :=
| others_none w : others D w w
| others_more w1 w2 w3 : others D w1 w2 -> external_step D w2 w3 -> others D w1 w3.
