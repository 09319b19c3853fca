(** Specification vocabulary for C64: which records an instruction renews, and where tokens can arrive unmeasured. *)
From Coq Require Import ZArith List Bool.
From Verif Require Import Base State Controller Spec AdminSpec HistSpec ArbSpec.
Import ListNotations.
Open Scope Z_scope.

(** The LSTs whose reserves the instruction measures: those named in its accounts. *)
Definition measures (accs : list Meta) (ix : Ix) (m : key) : Prop :=
  match ix with
  | SyncSolValue _ => m = key_at accs 0
  | SwapExactIn _ | SwapExactOut _ => m = sw_src_mint accs \/ m = sw_dst_mint accs
  | AddLiquidity _ | RemoveLiquidity _ => m = lq_mint accs
  | SetSolValueCalculator _ => m = key_at accs 1
  | StartRebalance _ => m = key_at accs 4 \/ m = key_at accs 5
  | EndRebalance => m = key_at accs 4
  | _ => False
  end.
(** The account an instruction may pay without measuring it afterwards: the one that receives minted LP tokens or withdrawn
    fees. It is chosen by the caller, so it can be a reserves account of the pool. *)
Definition pays_unmeasured (accs : list Meta) (ix : Ix) (k : key) : Prop :=
  match ix with
  | AddLiquidity _ => k = lq_user_lp accs
  | WithdrawProtocolFees _ => k = key_at accs 1
  | _ => False
  end.

(** Whatever the calculators listed in [w] answer is the value [V] of the amount asked about. *)
Definition value_at (E : Env) (V : valuation) (w : World) : Prop :=
  forall l ls w0 accs, the_list w = Some l -> In ls l ->
    forall x v, valued E w0 (sol_value_calculator ls) (ls_mint ls) accs x v -> v = V (ls_mint ls) x.
(** The LST of [ls'] was listed in [w], with the same record. *)
Definition same_record (w : World) (ls' : LstState) : Prop :=
  exists l ls, the_list w = Some l /\ In ls l /\ ls_mint ls = ls_mint ls' /\ sol_value ls = sol_value ls'.

(** Histories from [w0], where the tokens were worth [V0], with the set [stale] of the LSTs whose records may have fallen behind: a
    call takes out those it measures, and adds those whose reserves it pays unmeasured and a newly listed one whose reserves are
    not worth 0; what happens outside the program adds those whose reserves it changes; a reward, a loss or any other change of
    what tokens are worth adds those whose reserves it revalues. *)
Inductive stale_history (D : Derive) (V0 : valuation) (w0 : World) : (key -> Prop) -> valuation -> World -> Prop :=
| stale_start (st : key -> Prop) : (forall l ls, the_list w0 = Some l -> In ls l -> ~ st (ls_mint ls) ->
    sol_value ls = V0 (ls_mint ls) (in_pool D w0 (ls_mint ls))) -> stale_history D V0 w0 st V0 w0
| stale_call st V w E C accs ix w' : stale_history D V0 w0 st V w ->
    pdas_do_not_sign accs -> process D E C w accs ix = Ok w' -> value_at E V w' ->
    stale_history D V0 w0 (fun m => ~ measures accs ix m /\
      (st m \/ pays_unmeasured accs ix (reserves_key D w' m) \/
       ix = AddLst /\ ~ In m (listed_mints w) /\ V m (in_pool D w' m) <> 0)) V w'
| stale_outside st V w w' : stale_history D V0 w0 st V w -> external_step D w w' ->
    stale_history D V0 w0 (fun m => st m \/ in_pool D w' m <> in_pool D w m) V w'
| stale_revalued st V w V' : stale_history D V0 w0 st V w ->
    stale_history D V0 w0 (fun m => st m \/ V' m (in_pool D w m) <> V m (in_pool D w m)) V' w.
