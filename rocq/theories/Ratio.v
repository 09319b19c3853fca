(** Semantics assumed of the external crate [sanctum_token_ratio] (not in /repo; see Cargo.toml:
    [sanctum-token-ratio]). Used by libs/s-controller-lib/src/calc.rs:1-3, the calculator libs and
    the flat-fee lib.

    Forward operations are concrete. [reverse] operations are only specified by a contract
    ([ratio_lib_ok]): the returned interval brackets the preimages. *)
From Coq Require Import ZArith List Bool Lia.
From Verif Require Import Base.
Open Scope Z_scope.

(** FloorDiv(U64Ratio{num,denom}).apply(x) = floor(x*num/denom) computed in u128, error when the
    result exceeds u64; the ratio counts as zero when num = 0 or denom = 0.
    Call sites: libs/s-controller-lib/src/calc.rs:37-41, 55-59, 96-100, 136-140, 171-175. *)
Definition floor_apply (num denom x : Z) : res Z :=
  if (num =? 0) || (denom =? 0) then Ok 0
  else let r := x * num / denom in
       if r <=? U64_MAX then Ok r else Err RatioMathErr.

Definition ceil_div (a b : Z) : Z := (a + b - 1) / b.

(** CeilDiv(U64FeeRatio{fee_num,fee_denom}).apply(x): fee_charged = ceil(x*num/denom),
    amt_after_fee = x - fee_charged. A fee ratio above 1 is rejected at construction
    (U64FeeRatio::try_new / U64BpsFee::try_new).
    Call sites: libs/s-controller-lib/src/calc.rs:94-95, 134-135, 169-170;
    libs/sol-value-calculator-programs/spl-calculator-lib/src/calc.rs. *)
Definition ceil_fee_charged (num denom x : Z) : res Z :=
  if denom <? num then Err RatioMathErr
  else if (num =? 0) || (denom =? 0) then Ok 0
  else Ok (ceil_div (x * num) denom).

(** FloorDiv(fee).apply(x): fee_charged = floor(x*num/denom).
    Call site: libs/sol-value-calculator-programs/marinade-calculator-lib/src/calc.rs. *)
Definition floor_fee_charged (num denom x : Z) : res Z :=
  if denom <? num then Err RatioMathErr
  else if (num =? 0) || (denom =? 0) then Ok 0
  else Ok (x * num / denom).

(** sanctum_token_ratio::BPS_DENOMINATOR *)
Definition BPS_DENOMINATOR : Z := 10000.

(** CeilDiv(U64BpsFee::try_new(bps)?).apply(x)?.fee_charged() *)
Definition ceil_bps_fee (bps x : Z) : res Z := ceil_fee_charged bps BPS_DENOMINATOR x.

(** Amount after fee for the two rounding modes. *)
Definition ceil_fee_after (num denom x : Z) : res Z :=
  f <- ceil_fee_charged num denom x ;; Ok (x - f).
Definition floor_fee_after (num denom x : Z) : res Z :=
  f <- floor_fee_charged num denom x ;; Ok (x - f).

(** The reverse operations of the crate (ReversibleRatio::reverse,
    ReversibleFee::reverse_from_amt_after_fee): given the amount after, an interval of amounts
    before. *)
Record RatioLib := {
  rl_reverse : Z -> Z -> Z -> res (Z * Z);          (* num denom amt_after_apply *)
  rl_ceil_fee_reverse : Z -> Z -> Z -> res (Z * Z);  (* fee_num fee_denom amt_after_fee *)
  rl_floor_fee_reverse : Z -> Z -> Z -> res (Z * Z)
}.

(** [brackets f y lo hi]: every nonnegative amount that [f] maps to at least [y] is >= lo, and
    every nonnegative amount that [f] maps to at most [y] is <= hi. *)
Definition brackets (f : Z -> Z) (y lo hi : Z) : Prop :=
  U64 lo /\ U64 hi /\
  (forall x, 0 <= x -> y <= f x -> lo <= x) /\
  (forall x, 0 <= x <= U64_MAX -> f x <= y -> x <= hi).

(** The fee as a pure function: a fee ratio with zero numerator or denominator is no fee. *)
Definition ceil_fee (n d x : Z) : Z := if (n =? 0) || (d =? 0) then 0 else ceil_div (x * n) d.
Definition floor_fee (n d x : Z) : Z := if (n =? 0) || (d =? 0) then 0 else x * n / d.
(** Fee ratios below 100%. *)
Definition proper_fee (n d : Z) : Prop := 0 <= n /\ 0 <= d /\ (n < d \/ n = 0).

(** Contract of the crate's reverse functions, for nonzero ratios and fees below 100%. Nothing is
    assumed about them elsewhere, except that they return a U64ValueRange: two u64s, min <= max. *)
Definition ratio_lib_ok (R : RatioLib) : Prop :=
  (forall n d y lo hi, 0 < n -> 0 < d -> 0 <= y ->
     rl_reverse R n d y = Ok (lo, hi) -> brackets (fun x => x * n / d) y lo hi) /\
  (forall n d y lo hi, proper_fee n d -> 0 <= y ->
     rl_ceil_fee_reverse R n d y = Ok (lo, hi) -> brackets (fun x => x - ceil_fee n d x) y lo hi) /\
  (forall n d y lo hi, proper_fee n d -> 0 <= y ->
     rl_floor_fee_reverse R n d y = Ok (lo, hi) -> brackets (fun x => x - floor_fee n d x) y lo hi) /\
  (forall n d y lo hi, rl_reverse R n d y = Ok (lo, hi) -> U64 lo /\ U64 hi /\ lo <= hi) /\
  (forall n d y lo hi, rl_ceil_fee_reverse R n d y = Ok (lo, hi) -> U64 lo /\ U64 hi /\ lo <= hi) /\
  (forall n d y lo hi, rl_floor_fee_reverse R n d y = Ok (lo, hi) -> U64 lo /\ U64 hi /\ lo <= hi).

(** A concrete library meeting the contract, to show it is satisfiable; amounts that do not fit u64
    are errors. *)
Definition u64_pair (lo hi : Z) : res (Z * Z) :=
  if u64b lo && u64b hi && (lo <=? hi) then Ok (lo, hi) else Err RatioMathErr.
Definition ref_reverse (n d y : Z) : res (Z * Z) :=
  if (n <=? 0) || (d <=? 0) then Ok (0, 0)
  else u64_pair (y * d / n) (((y + 1) * d - 1) / n).
(* x - ceil(x n / d) = floor(x (d-n) / d) *)
Definition ref_ceil_fee_reverse (n d y : Z) : res (Z * Z) :=
  if (n =? 0) || (d =? 0) then u64_pair y y else ref_reverse (d - n) d y.
(* x - floor(x n / d) = ceil(x (d-n) / d) *)
Definition ref_floor_fee_reverse (n d y : Z) : res (Z * Z) :=
  if (n =? 0) || (d =? 0) then u64_pair y y
  else if d <=? n then Err RatioMathErr
  else u64_pair (Z.max 0 ((y - 1) * d / (d - n))) (y * d / (d - n)).
Definition ref_ratio_lib : RatioLib :=
  {| rl_reverse := ref_reverse;
     rl_ceil_fee_reverse := ref_ceil_fee_reverse;
     rl_floor_fee_reverse := ref_floor_fee_reverse |}.

Lemma u64_pair_ok a b lo hi : u64_pair a b = Ok (lo, hi) -> lo = a /\ hi = b /\ U64 lo /\ U64 hi /\ lo <= hi.
Proof.
  unfold u64_pair. destruct (u64b a) eqn:Ha, (u64b b) eqn:Hb; cbn [andb]; try discriminate.
  destruct (Z.leb_spec a b); [|discriminate].
  intros [= <- <-]. rewrite U64_spec in *. auto.
Qed.
Lemma ceil_div_spec a b : 0 < b -> forall z, ceil_div a b <= z <-> a <= z * b.
Proof.
  intros Hb z. unfold ceil_div.
  pose proof (Z.div_mod (a + b - 1) b ltac:(lia)). pose proof (Z.mod_pos_bound (a + b - 1) b Hb).
  split; intros; nia.
Qed.
Lemma div_spec a b : 0 < b -> forall z, z <= a / b <-> z * b <= a.
Proof.
  intros Hb z. pose proof (Z.div_mod a b ltac:(lia)). pose proof (Z.mod_pos_bound a b Hb).
  split; intros; nia.
Qed.
(** Taking a fee rounded up leaves the floor of the rest, and vice versa. *)
Lemma ceil_fee_rest n d x : 0 < d -> x - ceil_div (x * n) d = x * (d - n) / d.
Proof.
  intros Hd. apply Z.le_antisymm.
  - apply div_spec; auto. pose proof (proj1 (ceil_div_spec (x * n) d Hd _) (Z.le_refl _)). nia.
  - pose proof (proj1 (div_spec (x * (d - n)) d Hd _) (Z.le_refl _)).
    assert (ceil_div (x * n) d <= x - x * (d - n) / d) by (apply ceil_div_spec; auto; nia). lia.
Qed.
Lemma floor_fee_rest n d x : 0 < d -> x - x * n / d = ceil_div (x * (d - n)) d.
Proof.
  intros Hd. apply Z.le_antisymm.
  - pose proof (proj1 (ceil_div_spec (x * (d - n)) d Hd _) (Z.le_refl _)).
    assert (x - ceil_div (x * (d - n)) d <= x * n / d) by (apply div_spec; auto; nia). lia.
  - apply ceil_div_spec; auto. pose proof (proj1 (div_spec (x * n) d Hd _) (Z.le_refl _)). nia.
Qed.

Lemma ref_reverse_ok n d y lo hi : 0 < n -> 0 < d -> 0 <= y ->
  ref_reverse n d y = Ok (lo, hi) -> brackets (fun x => x * n / d) y lo hi.
Proof.
  intros Hn Hd Hy. unfold ref_reverse. destruct (Z.leb_spec n 0), (Z.leb_spec d 0); try lia; cbn [orb].
  intros (-> & -> & Hl & Hh & _)%u64_pair_ok. unfold brackets. split; [auto|]. split; [auto|]. split.
  - intros x _ Hx. apply div_spec in Hx; auto.
    assert (y * d / n < x + 1); [|lia]. apply Z.div_lt_upper_bound; nia.
  - intros x _ Hx. apply div_spec; auto.
    assert (~ y + 1 <= x * n / d) as Hn1 by lia. rewrite div_spec in Hn1 by auto. lia.
Qed.
Lemma brackets_ext f g y lo hi : (forall x, f x = g x) -> brackets f y lo hi -> brackets g y lo hi.
Proof.
  intros He (H1 & H2 & H3 & H4). unfold brackets. split; [auto|]. split; [auto|]. split; intros x Hx; rewrite <- He; auto.
Qed.
(** The contract is met by the reference library. *)
Lemma ref_ratio_lib_ok : ratio_lib_ok ref_ratio_lib.
Proof.
  assert (U1 : forall n d y lo hi, ref_reverse n d y = Ok (lo, hi) -> U64 lo /\ U64 hi /\ lo <= hi).
  { intros n d y lo hi. unfold ref_reverse. destruct ((n <=? 0) || (d <=? 0)).
    - intros [= <- <-]. unfold U64, U64_MAX. lia.
    - intros (_ & _ & H)%u64_pair_ok. exact H. }
  unfold ratio_lib_ok, ref_ratio_lib; cbn [rl_reverse rl_ceil_fee_reverse rl_floor_fee_reverse].
  split; [exact ref_reverse_ok|]. split; [|split; [|split; [exact U1|split]]].
  - intros n d y lo hi (Hn & Hd & Hp) Hy. unfold ref_ceil_fee_reverse, ceil_fee.
    destruct ((n =? 0) || (d =? 0)) eqn:Hz.
    + intros (-> & -> & Hu & _)%u64_pair_ok. unfold brackets. split; [auto|]. split; [auto|]. split; intros; lia.
    + apply orb_false_iff in Hz as (Hz1 & Hz2). rewrite Z.eqb_neq in *. intros Hr.
      apply (brackets_ext (fun x => x * (d - n) / d)).
      * intros x. symmetry. apply ceil_fee_rest. lia.
      * apply ref_reverse_ok; auto; lia.
  - intros n d y lo hi (Hn & Hd & Hp) Hy. unfold ref_floor_fee_reverse, floor_fee.
    destruct ((n =? 0) || (d =? 0)) eqn:Hz.
    + intros (-> & -> & Hu & _)%u64_pair_ok. unfold brackets. split; [auto|]. split; [auto|]. split; intros; lia.
    + apply orb_false_iff in Hz as (Hz1 & Hz2). rewrite Z.eqb_neq in *.
      destruct (Z.leb_spec d n); [lia|]. intros (-> & -> & Hl & Hh & _)%u64_pair_ok.
      unfold brackets. split; [auto|]. split; [auto|]. split; intros x Hx; rewrite floor_fee_rest by lia; intros Hf.
      * apply Z.max_lub; [lia|].
        assert (Hq : ~ ceil_div (x * (d - n)) d <= y - 1) by lia. rewrite ceil_div_spec in Hq by lia.
        assert (Hm : (y - 1) * d / (d - n) <= x * (d - n) / (d - n)) by (apply Z.div_le_mono; lia).
        rewrite Z.div_mul in Hm by lia. exact Hm.
      * apply div_spec; [lia|]. apply ceil_div_spec in Hf; lia.
  - intros n d y lo hi. unfold ref_ceil_fee_reverse. destruct ((n =? 0) || (d =? 0)); [|apply U1].
    intros (_ & _ & H)%u64_pair_ok. exact H.
  - intros n d y lo hi. unfold ref_floor_fee_reverse. destruct ((n =? 0) || (d =? 0)).
    + intros (_ & _ & H)%u64_pair_ok. exact H.
    + destruct (d <=? n); [discriminate|]. intros (_ & _ & H)%u64_pair_ok. exact H.
Qed.
