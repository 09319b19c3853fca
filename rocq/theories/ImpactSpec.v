(** Specification vocabulary for C61: the price of a swap. *)
From Coq Require Import ZArith List Bool.
From Verif Require Import Base State Controller Spec AdminSpec TradeSpec.
Import ListNotations.
Open Scope Z_scope.

(** The calculators and the pricing program answer from their own accounts alone: the pool's state, the tokens held and
    the accounts of other programs do not matter. *)
Definition stateless (E : Env) : Prop := forall w w',
  (forall p m a x, e_lst_to_sol E w p m a x = e_lst_to_sol E w' p m a x) /\
  (forall p m a x, e_sol_to_lst E w p m a x = e_sol_to_lst E w' p m a x) /\
  (forall p i o a x s, e_price_exact_in E w p i o a x s = e_price_exact_in E w' p i o a x s) /\
  (forall p i o a x s, e_price_exact_out E w p i o a x s = e_price_exact_out E w' p i o a x s) /\
  (forall p m a x s, e_price_lp_to_mint E w p m a x s = e_price_lp_to_mint E w' p m a x s) /\
  (forall p m a x s, e_price_lp_to_redeem E w p m a x s = e_price_lp_to_redeem E w' p m a x s).

(** Two swap instructions for the same amount in the same direction; limits and positions in the list may differ. *)
Definition same_swap (a b : Ix) : Prop :=
  match a, b with
  | SwapExactIn x, SwapExactIn y =>
      si_src_lst_value_calc_accs x = si_src_lst_value_calc_accs y /\
      si_dst_lst_value_calc_accs x = si_dst_lst_value_calc_accs y /\ si_amount x = si_amount y
  | SwapExactOut x, SwapExactOut y =>
      so_src_lst_value_calc_accs x = so_src_lst_value_calc_accs y /\
      so_dst_lst_value_calc_accs x = so_dst_lst_value_calc_accs y /\ so_amount x = so_amount y
  | _, _ => False
  end.
(** What the swap fixes, the user gives or gets exactly. *)
Definition as_asked (ix : Ix) (pay out : Z) : Prop :=
  match ix with SwapExactIn x => pay = si_amount x | SwapExactOut x => out = so_amount x | _ => False end.

Definition trading_bps (w : World) : Z := match the_pool w with Some ps => trading_protocol_fee_bps ps | None => 0 end.

(** A swap passing [accs] takes [pay] from the user's source account (position 3) into the source reserves (10), and from
    the destination reserves (11) pays the user's destination account (4) [out] and the fee accumulator (5) [fee];
    nothing else moves. *)
Definition settles (w w' : World) (accs : list Meta) (pay out fee : Z) : Prop :=
  w_mint w' = w_mint w /\
  forall k, balance w' k = balance w k
    - on k (key_at accs 3) pay + on k (key_at accs 10) pay
    - on k (key_at accs 11) (out + fee) + on k (key_at accs 4) out + on k (key_at accs 5) fee.
