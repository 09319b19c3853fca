(** Specification vocabulary for C63: whose tokens an instruction may take, and how many. *)
From Coq Require Import ZArith List Bool.
From Verif Require Import Base State Controller Spec.
Import ListNotations.
Open Scope Z_scope.

(** The most an instruction may take from the token account [k], if [k] is not the pool's:
    the amount given, or the limit given, from the account named as the source. *)
Definition may_take (accs : list Meta) (ix : Ix) (k : key) : Z :=
  match ix with
  | SwapExactIn a => on k (sw_user_src accs) (si_amount a)
  | SwapExactOut a => on k (sw_user_src accs) (so_max_amount_in a)
  | AddLiquidity a => on k (lq_user_lst accs) (al_lst_amount a)
  | RemoveLiquidity a => on k (lq_user_lp accs) (rl_lp_token_amount a)
  | _ => 0
  end.

(** The token account [k], whose contents were [t], is still there, for the same mint and owner, with all but [n] of its tokens. *)
Definition still_has (w' : World) (k : key) (t : TokAcct) (n : Z) : Prop :=
  exists t', w_tok w' k = Some t' /\ ta_mint t' = ta_mint t /\ ta_owner t' = ta_owner t /\ ta_amount t - n <= ta_amount t'.

(** Not one of the two addresses under which the pool holds tokens. *)
Definition outsider (O : key) : Prop := O <> POOL_STATE_ID /\ O <> PROTOCOL_FEE_ID.

(** Histories seen by the owner [O] of the account [k]: others do as they please; what [O] signs may take up to [z] in all;
    outside the program the account is left alone (or paid into). *)
Inductive holder_history (D : Derive) (O k : key) : Z -> World -> World -> Prop :=
| hold_start w : holder_history D O k 0 w w
| hold_signed z w0 w E C accs ix w' : holder_history D O k z w0 w ->
    pdas_do_not_sign accs -> process D E C w accs ix = Ok w' -> signed_by accs O ->
    holder_history D O k (z + may_take accs ix k) w0 w'
| hold_unsigned z w0 w E C accs ix w' : holder_history D O k z w0 w ->
    pdas_do_not_sign accs -> process D E C w accs ix = Ok w' -> ~ signed_by accs O ->
    holder_history D O k z w0 w'
| hold_outside z w0 w w' : holder_history D O k z w0 w -> external_step D w w' ->
    (forall t, w_tok w k = Some t -> ta_owner t = O -> still_has w' k t 0) ->
    holder_history D O k z w0 w'.
