(** Specification vocabulary for C66: what an instruction's outcome can depend on. *)
From Coq Require Import ZArith List Bool.
From Verif Require Import Base State Controller Periph.
Import ListNotations.
Open Scope Z_scope.

(** The account [k] is the same in both worlds, as whatever it is read. *)
Definition same_account (w w' : World) (k : key) : Prop :=
  w_pool w k = w_pool w' k /\ w_list w k = w_list w' k /\ w_auth w k = w_auth w' k /\ w_rec w k = w_rec w' k /\
  w_tok w k = w_tok w' k /\ w_mint w k = w_mint w' k /\ w_owner w k = w_owner w' k /\ w_exec w k = w_exec w' k.
Definition agree_on (P : key -> Prop) (w w' : World) : Prop := forall k, P k -> same_account w w' k.
(** Passed to the call. *)
Definition passed (accs : list Meta) (k : key) : Prop := In k (map mk accs).

(** The calculators and the pricing program too answer by the accounts they are handed: their program's own, the mints and the
    rest of the CPI's accounts. *)
Definition handed (ks : list key) (accs : list Meta) (k : key) : Prop := In k ks \/ passed accs k.
Definition reads_only_handed (E : Env) : Prop := forall w w' accs,
  (forall p m x, agree_on (handed [p; m] accs) w w' ->
     e_lst_to_sol E w p m accs x = e_lst_to_sol E w' p m accs x /\ e_sol_to_lst E w p m accs x = e_sol_to_lst E w' p m accs x) /\
  (forall p i o a x, agree_on (handed [p; i; o] accs) w w' ->
     e_price_exact_in E w p i o accs a x = e_price_exact_in E w' p i o accs a x /\
     e_price_exact_out E w p i o accs a x = e_price_exact_out E w' p i o accs a x) /\
  (forall p m a x, agree_on (handed [p; m] accs) w w' ->
     e_price_lp_to_mint E w p m accs a x = e_price_lp_to_mint E w' p m accs a x /\
     e_price_lp_to_redeem E w p m accs a x = e_price_lp_to_redeem E w' p m accs a x).

(** The same outcome: the same error, or success leaving the accounts [P] the same. *)
Definition alike (P : key -> Prop) (r r' : res World) : Prop :=
  match r, r' with Ok w, Ok w' => agree_on P w w' | Err e, Err e' => e = e' | _, _ => False end.

(** The shipped programs' own chain: the accounts [P] are the same, and so is the epoch. *)
Definition agree_pw (P : key -> Prop) (pw pw' : PWorld) : Prop :=
  pw_epoch pw = pw_epoch pw' /\ forall k, P k -> pw_acc pw k = pw_acc pw' k.
(** The same outcome of a shipped program: the same error, or the same answer and the accounts [P] left the same. *)
Definition alike_pw {A} (P : key -> Prop) (r r' : res (PWorld * A)) : Prop :=
  match r, r' with
  | Ok (pw, a), Ok (pw', a') => a = a' /\ agree_pw P pw pw'
  | Err e, Err e' => e = e'
  | _, _ => False end.
