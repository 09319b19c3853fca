(** Specification vocabulary for LSTs that charge for transfers (C58). *)
From Coq Require Import ZArith List Bool.
From Verif Require Import Base State Controller Spec Fee.
Import ListNotations.
Open Scope Z_scope.

(** Histories of a pool with such LSTs: as [reachable], with the controller's instructions carried out under the fees. *)
Inductive fee_step (D : Derive) (F : key -> Z -> Z) (w w' : World) : Prop :=
| fee_external : external_step D w w' -> fee_step D F w w'
| fee_controller E C accs ix : pdas_do_not_sign accs -> process_f D F E C w accs ix = Ok w' -> fee_step D F w w'.
Inductive fee_steps (D : Derive) (F : key -> Z -> Z) (w : World) : World -> Prop :=
| fee_nil : fee_steps D F w w
| fee_cons w' w'' : fee_steps D F w w' -> fee_step D F w' w'' -> fee_steps D F w w''.
Definition fee_reachable (D : Derive) (F : key -> Z -> Z) (w : World) : Prop := exists w0, genesis D w0 /\ fee_steps D F w0 w.

(** What arrives of a transfer of [a] tokens of [m] (all of it, when an account pays itself). *)
Definition arrives (F : key -> Z -> Z) (w : World) (m from to : key) (a : Z) : Z :=
  if from =? to then a else a - withheld F (w_owner w m) m a.

(** The flows of Spec.v with the fees. *)
Definition swap_flow_f (F : key -> Z -> Z) (E : Env) (w : World) (accs : list Meta) (n m i j : Z) (w2 : World)
  (src_in dst_out fee : Z) (w' : World) : Prop :=
  let gs := group accs 12 n in
  let gd := group accs (12 + Z.to_nat n) m in
  exists w1 w3 w4,
    revalued E w i (sw_src_reserves accs) (group_prog gs) (sw_src_mint accs) (group_accs gs) w1 /\
    revalued E w1 j (sw_dst_reserves accs) (group_prog gd) (sw_dst_mint accs) (group_accs gd) w2 /\
    same_controller_accounts w2 w3 /\ w_mint w3 = w_mint w2 /\
    (forall k, balance w3 k = balance w2 k
       - on k (sw_user_src accs) src_in + on k (sw_src_reserves accs) (arrives F w (sw_src_mint accs) (sw_user_src accs) (sw_src_reserves accs) src_in)
       - on k (sw_dst_reserves accs) (dst_out + fee)
       + on k (sw_fee_acc accs) (arrives F w (sw_dst_mint accs) (sw_dst_reserves accs) (sw_fee_acc accs) fee)
       + on k (sw_user_dst accs) (arrives F w (sw_dst_mint accs) (sw_dst_reserves accs) (sw_user_dst accs) dst_out)) /\
    revalued E w3 i (sw_src_reserves accs) (group_prog gs) (sw_src_mint accs) (group_accs gs) w4 /\
    revalued E w4 j (sw_dst_reserves accs) (group_prog gd) (sw_dst_mint accs) (group_accs gd) w'.
Definition add_flow_f (F : key -> Z -> Z) (E : Env) (w : World) (accs : list Meta) (n i : Z) (w1 : World)
  (to_reserves fee lp : Z) (w' : World) : Prop :=
  let g := group accs 11 n in
  exists w2,
    revalued E w i (lq_reserves accs) (group_prog g) (lq_mint accs) (group_accs g) w1 /\
    same_controller_accounts w1 w2 /\
    (forall M, supply w2 M = supply w1 M + on M (lq_lp_mint accs) lp) /\
    (forall k, balance w2 k = balance w1 k
       - on k (lq_user_lst accs) (to_reserves + fee)
       + on k (lq_reserves accs) (arrives F w (lq_mint accs) (lq_user_lst accs) (lq_reserves accs) to_reserves) + on k (lq_fee_acc accs) (arrives F w (lq_mint accs) (lq_user_lst accs) (lq_fee_acc accs) fee)
       + on k (lq_user_lp accs) lp) /\
    revalued E w2 i (lq_reserves accs) (group_prog g) (lq_mint accs) (group_accs g) w'.
Definition remove_flow_f (F : key -> Z -> Z) (E : Env) (w : World) (accs : list Meta) (n i : Z) (w1 : World)
  (lp to_user fee : Z) (w' : World) : Prop :=
  let g := group accs 11 n in
  exists w2,
    revalued E w i (lq_reserves accs) (group_prog g) (lq_mint accs) (group_accs g) w1 /\
    same_controller_accounts w1 w2 /\
    (forall M, supply w2 M = supply w1 M - on M (lq_lp_mint accs) lp) /\
    (forall k, balance w2 k = balance w1 k
       - on k (lq_user_lp accs) lp
       - on k (lq_reserves accs) (to_user + fee)
       + on k (lq_user_lst accs) (arrives F w (lq_mint accs) (lq_reserves accs) (lq_user_lst accs) to_user) + on k (lq_fee_acc accs) (arrives F w (lq_mint accs) (lq_reserves accs) (lq_fee_acc accs) fee)) /\
    revalued E w2 i (lq_reserves accs) (group_prog g) (lq_mint accs) (group_accs g) w'.
