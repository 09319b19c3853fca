(** Transactions: the Solana runtime's execution of a list of top-level instructions, as far as the
    pool is concerned. This is runtime behaviour (not in /repo); the entry point it calls is
    programs/s-controller/src/entrypoint.rs:14-65 ([process_instruction]) and what the controller sees
    of the transaction is the instructions sysvar used in processor/start_rebalance.rs:196-232. *)
From Coq Require Import ZArith List Bool.
From Verif Require Import Base State Controller Spec Serde.
Import ListNotations.
Open Scope Z_scope.

(** What an instruction of another program may do: anything outside the controller's accounts, and any
    number of calls into the controller (with any accounts and data; the instructions sysvar still
    shows the top-level instructions and the index of the running top-level one). *)
Inductive inner (D : Derive) (C : Ctx) : World -> World -> Prop :=
| inner_done w : inner D C w w
| inner_ext w1 w2 w3 : external_step D w1 w2 -> inner D C w2 w3 -> inner D C w1 w3
| inner_cpi E accs data w1 w2 w3 :
    pdas_do_not_sign accs -> are_bytes data = true ->
    process_instruction D E C S_CONTROLLER_ID w1 accs data = Ok w2 ->
    inner D C w2 w3 -> inner D C w1 w3.

(** Successful execution of one top-level instruction. *)
Inductive exec_ix (D : Derive) (C : Ctx) (ix : TopIx) (w w' : World) : Prop :=
| exec_controller E :
    ti_prog ix = S_CONTROLLER_ID -> pdas_do_not_sign (ti_accs ix) -> are_bytes (ti_data ix) = true ->
    process_instruction D E C (ti_prog ix) w (ti_accs ix) (ti_data ix) = Ok w' -> exec_ix D C ix w w'
| exec_other : ti_prog ix <> S_CONTROLLER_ID -> inner D C w w' -> exec_ix D C ix w w'.

(** All the instructions from index [k] on succeed, one after the other. *)
Inductive exec_from (D : Derive) (ixs : list TopIx) : nat -> World -> World -> Prop :=
| exec_done w : exec_from D ixs (length ixs) w w
| exec_next k ix w1 w2 w3 :
    nth_error ixs k = Some ix -> exec_ix D (mkCtx ixs k) ix w1 w2 ->
    exec_from D ixs (S k) w2 w3 -> exec_from D ixs k w1 w3.

(** A committed transaction: every instruction succeeded. (A transaction with a failing instruction
    leaves the state as it was.) *)
Definition committed (D : Derive) (ixs : list TopIx) (w w' : World) : Prop := exec_from D ixs 0 w w'.

(** The chain as a sequence of whole transactions. *)
Inductive chain (D : Derive) : World -> Prop :=
| chain_genesis w : genesis D w -> chain D w
| chain_commit w w' ixs : chain D w -> committed D ixs w w' -> chain D w'.
