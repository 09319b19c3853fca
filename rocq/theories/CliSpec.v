(** Specification vocabulary for the operator's command line tool (C51). *)
From Coq Require Import ZArith List Bool.
From Verif Require Import Base Ratio State Controller Spec Periph PeriphSpec Deploy Client ClientSpec Known Jup JupSpec.
Import ListNotations.
Open Scope Z_scope.

(** Where the tool is used: on the shipped programs, with the chain in a reachable state [w] (controller and tokens)
    and [pw] (stake pools), the pool's state and list being [ps] and [l], and a file of known LSTs [lsts] that is
    right about them and has each at most once. Wrapped SOL is a mint of the SPL token program and, if the pool
    lists it, is valued by the wSOL calculator. *)
Record tool_setting (R : RatioLib) (dp : Deploy) (D : Derive) (lsts : list SanctumLst) (w : World) (pw : PWorld)
  (l : list LstState) (ps : PoolState) : Prop := {
  ts_derive : derive_ok D;
  ts_deploy : deploy_ok dp;
  ts_ratio : ratio_lib_ok R;
  ts_typed : pools_typed pw;
  ts_reach : reachable D w;
  ts_list : the_list w = Some l;
  ts_pool : the_pool w = Some ps;
  ts_length : Z.of_nat (length l) <= U32_MAX;
  ts_known : known_lsts_ok dp w lsts;
  ts_once : NoDup (map sl_mint lsts);
  ts_native : w_owner w WSOL_MINT = SPL_TOKEN_ID;
  ts_wsol : forall ls, In ls l -> ls_mint ls = WSOL_MINT -> sol_value_calculator ls = dp_wsol dp }.

(** The stake pool's own instructions, run in the middle of the rebalance, left no amount of the LST worth less than
    before: whatever amount its calculator values afterwards, it valued before, at no more. *)
Definition not_worth_less (E E' : Env) (calc mint : key) (accs : list Meta) : Prop :=
  forall w w' x v' hi', e_lst_to_sol E' w' calc mint accs x = Ok (v', hi') ->
    exists v hi, e_lst_to_sol E w calc mint accs x = Ok (v, hi) /\ v <= v'.

(** The end of the rebalance, run in [w2], was not refused for missing value: it went through, unless the
    destination's calculator (program [calc], called with [accs]) had no answer for the balance of the reserves, or
    the pool's total would outgrow 64 bits ([recorded w2 j]: the destination's value as recorded by the start). *)
Definition ended (E' : Env) (w2 : World) (j : Z) (calc mint : key) (accs : list Meta) (reserves : key)
  (r : res World) : Prop :=
  exists wz, same_tokens w2 wz /\
  match e_lst_to_sol E' wz calc mint accs (balance w2 reserves) with
  | Err _ => r = Err ExternalErr
  | Ok (v, _) => if U64_MAX <? total w2 - recorded w2 j + v then r = Err (Ctl MathError) else exists w3, r = Ok w3
  end.
(** The same for wrapped SOL, whose calculator always answers: only outgrowing 64 bits is left. *)
Definition ended_wsol (w2 : World) (j : Z) (reserves : key) (r : res World) : Prop :=
  if U64_MAX <? total w2 - recorded w2 j + balance w2 reserves then r = Err (Ctl MathError) else exists w3, r = Ok w3.
