(** Specification vocabulary for C65: a larger order against a smaller one. *)
From Coq Require Import ZArith List Bool.
From Verif Require Import Base Ratio State Controller Spec AdminSpec TradeSpec ImpactSpec.
Import ListNotations.
Open Scope Z_scope.

(** The calculators and the pricing program answer more (or as much) for more, whatever state the pool is in. *)
Definition rises (f g : Z -> res (Z * Z)) : Prop := forall x y lo hi lo' hi', 0 <= x <= y ->
  f x = Ok (lo, hi) -> g y = Ok (lo', hi') -> lo <= lo' /\ hi <= hi'.
Definition rises2 (f g : Z -> Z -> res Z) : Prop := forall a b x y r r', 0 <= a <= b -> 0 <= x <= y ->
  f a x = Ok r -> g b y = Ok r' -> r <= r'.
Definition growing (E : Env) : Prop := forall w w',
  (forall p m accs, rises (e_lst_to_sol E w p m accs) (e_lst_to_sol E w' p m accs)) /\
  (forall p m accs, rises (e_sol_to_lst E w p m accs) (e_sol_to_lst E w' p m accs)) /\
  (forall p i o accs, rises2 (e_price_exact_in E w p i o accs) (e_price_exact_in E w' p i o accs)) /\
  (forall p i o accs, rises2 (e_price_exact_out E w p i o accs) (e_price_exact_out E w' p i o accs)) /\
  (forall p m accs, rises2 (e_price_lp_to_mint E w p m accs) (e_price_lp_to_mint E w' p m accs)) /\
  (forall p m accs, rises2 (e_price_lp_to_redeem E w p m accs) (e_price_lp_to_redeem E w' p m accs)).

(** The arithmetic library's reverse operations do. *)
Definition library_rises (R : RatioLib) : Prop :=
  (forall n d, 0 <= n -> 0 <= d -> rises (rl_reverse R n d) (rl_reverse R n d)) /\
  (forall n d, 0 <= n -> 0 <= d -> rises (rl_ceil_fee_reverse R n d) (rl_ceil_fee_reverse R n d)) /\
  (forall n d, 0 <= n -> 0 <= d -> rises (rl_floor_fee_reverse R n d) (rl_floor_fee_reverse R n d)).

(** A deposit passing [accs]: [pay] leaves the user's LST account (position 2), all but [fee] of it for the reserves (10),
    the rest for the fee accumulator (5); [shares] LP tokens are created (mint 4) in the user's LP account (3). *)
Definition deposits (w w' : World) (accs : list Meta) (pay fee shares : Z) : Prop :=
  (forall m, supply w' m = supply w m + on m (key_at accs 4) shares) /\
  forall k, balance w' k = balance w k
    - on k (key_at accs 2) pay + on k (key_at accs 10) (pay - fee) + on k (key_at accs 5) fee + on k (key_at accs 3) shares.
(** A redemption: the other way, [out] to the user and [fee] to the fee accumulator. *)
Definition redeems (w w' : World) (accs : list Meta) (shares out fee : Z) : Prop :=
  (forall m, supply w' m = supply w m - on m (key_at accs 4) shares) /\
  forall k, balance w' k = balance w k
    - on k (key_at accs 3) shares - on k (key_at accs 10) (out + fee) + on k (key_at accs 2) out + on k (key_at accs 5) fee.
