(** Specification vocabulary for C62: what the pool holds, in lamports. *)
From Coq Require Import ZArith List Bool.
From Verif Require Import Base State Controller Spec AdminSpec HistSpec.
Import ListNotations.
Open Scope Z_scope.

(** The pool's tokens of the mint [m], and what all its tokens are worth. *)
Definition in_pool (D : Derive) (w : World) (m : key) : Z := balance w (reserves_key D w m).
Definition holdings (D : Derive) (V : valuation) (w : World) : Z :=
  match the_list w with
  | Some l => sumZ (map (fun ls => V (ls_mint ls) (in_pool D w (ls_mint ls))) l)
  | None => 0
  end.
(** Every LST's record is what its reserves are worth now (as after SyncSolValue for each). *)
Definition freshly_measured (D : Derive) (V : valuation) (w : World) : Prop :=
  forall l ls, the_list w = Some l -> In ls l -> sol_value ls = V (ls_mint ls) (in_pool D w (ls_mint ls)).
(** The LSTs listed, in order. *)
Definition listed_mints (w : World) : list key := match the_list w with Some l => map ls_mint l | None => [] end.
(** One whole unit of every LST is worth a lamport or more. *)
Definition at_least_par (r : rates) : Prop := forall m, snd (r m) <= fst (r m).
