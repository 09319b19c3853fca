(** Base definitions: keys, errors, the result monad, bounded integers, list edits.
    Everything on-chain that is an integer is a [Z]; its Rust type's range is stated explicitly. *)
From Coq Require Import ZArith List Bool Lia.
Import ListNotations.
Open Scope Z_scope.

(** Public keys are abstract identifiers: the code only compares them for equality. *)
Definition key := Z.

(** generated/s_controller_interface/src/errors.rs:8-88 — [SControllerError] *)
Inductive ctl_err :=
| InvalidPoolStateData | InvalidLstStateListData | InvalidDisablePoolAuthorityListData
| InvalidRebalanceRecordData | MathError | PoolRebalancing | PoolDisabled | PoolEnabled
| InvalidLstIndex | InvalidReserves | IncorrectSolValueCalculator | FaultySolValueCalculator
| IncorrectLstStateList | IncorrectPoolState | LstInputDisabled | NoSucceedingEndRebalance
| IncorrectRebalanceRecord | PoolNotRebalancing | PoolWouldLoseSolValue | LstStillHasValue
| IncorrectPricingProgram | SlippageToleranceExceeded | NotEnoughLiquidity | IndexTooLarge
| InvalidDisablePoolAuthorityIndex | UnauthorizedDisablePoolAuthoritySigner
| InvalidDisablePoolAuthority | UnauthorizedSetRebalanceAuthoritySigner
| IncorrectDisablePoolAuthorityList | FeeTooHigh | NotEnoughFees | ZeroValue
| FaultyPricingProgram | IncorrectLpMintInitialization | DuplicateLst | SwapSameLst
| DuplicateDisablePoolAuthority.

(** generated/sol-value-calculator-programs/generic_pool_calculator_interface/src/errors.rs:8-25,
    the SPL / Lido / Marinade calculators' own errors, and
    generated/pricing-programs/flat_fee_interface/src/errors.rs — only those the code can return *)
Inductive prog_err :=
| UnexpectedProgramUpgrade | WrongPoolProgram | WrongCalculatorStatePda
| InvalidCalculatorStateData | InvalidStakePoolProgramData
| PoolNotUpdated | ExchangeRateNotUpdatedInThisEpoch
| MarinadePaused | MarinadeStakeWithdrawDisabled
| SignedFeeOutOfBound | UnsignedFeeOutOfBound | UnsupportedLstMint | InvalidProgramStateData
| IncorrectProgramState | FlatMathError.

(** Errors a modelled function can end with. [Panic] stands for a Rust panic
    (out-of-bounds index, unwrap of None, ...). *)
Inductive err :=
| Ctl (c : ctl_err)            (* ProgramError::Custom of a controller error *)
| NotEnoughAccountKeys         (* ProgramError::NotEnoughAccountKeys *)
| WrongAccount                 (* log_and_return_wrong_acc_err *)
| PrivilegeErr                 (* log_and_return_acc_privilege_err *)
| InvalidData                  (* account/instruction data does not parse *)
| IncorrectProgramId
| TokenErr                     (* the token program CPI failed *)
| SystemErr                    (* the system program / ATA program CPI failed *)
| ExternalErr                  (* a calculator / pricing program CPI failed *)
| RatioMathErr                 (* sanctum_token_ratio::MathError *)
| Prog (p : prog_err)          (* ProgramError::Custom of a calculator / pricing program error *)
| BadSeeds                     (* PubkeyError of create_program_address *)
| NotReady                     (* off-chain clients only: something is not fetched, not known or not supported *)
| Panic.

Inductive res (A : Type) := Ok (a : A) | Err (e : err).
Arguments Ok {A} a.
Arguments Err {A} e.

Definition bind {A B} (m : res A) (f : A -> res B) : res B :=
  match m with Ok a => f a | Err e => Err e end.

Notation "x <- m ;; k" := (bind m (fun x => k))
  (at level 61, m at next level, right associativity).
Notation "' p <- m ;; k" := (bind m (fun x => match x with p => k end))
  (at level 61, p pattern, m at next level, right associativity).

(** [guard b e k]: continue with [k] when [b], else fail with [e]. *)
Definition guard {A} (b : bool) (e : err) (k : res A) : res A := if b then k else Err e.

Definition of_option {A} (e : err) (o : option A) : res A :=
  match o with Some a => Ok a | None => Err e end.

Definition is_ok {A} (r : res A) : Prop := match r with Ok _ => True | Err _ => False end.

(** Rust unsigned integer ranges. *)
Definition U64_MAX : Z := 18446744073709551615.
Definition U32_MAX : Z := 4294967295.
Definition U16_MAX : Z := 65535.
Definition U8_MAX : Z := 255.
Definition u64b (x : Z) : bool := (0 <=? x) && (x <=? U64_MAX).
Definition u32b (x : Z) : bool := (0 <=? x) && (x <=? U32_MAX).
Definition u16b (x : Z) : bool := (0 <=? x) && (x <=? U16_MAX).
Definition u8b (x : Z) : bool := (0 <=? x) && (x <=? U8_MAX).
Definition U64 (x : Z) : Prop := 0 <= x <= U64_MAX.

(** u64::checked_add / checked_sub, with the error the caller maps [None] to. *)
Definition checked_add (e : err) (a b : Z) : res Z :=
  if a + b <=? U64_MAX then Ok (a + b) else Err e.
Definition checked_sub (e : err) (a b : Z) : res Z :=
  if b <=? a then Ok (a - b) else Err e.
(** u64::saturating_sub *)
Definition sat_sub (a b : Z) : Z := if b <=? a then a - b else 0.

(** In-place edits of lists. *)
Fixpoint replace_nth {A} (l : list A) (n : nat) (x : A) : list A :=
  match l, n with
  | [], _ => []
  | _ :: t, O => x :: t
  | h :: t, S n' => h :: replace_nth t n' x
  end.
Fixpoint remove_nth {A} (l : list A) (n : nat) : list A :=
  match l, n with
  | [], _ => []
  | _ :: t, O => t
  | h :: t, S n' => h :: remove_nth t n'
  end.

(** Key-indexed maps. *)
Definition upd {A} (f : key -> A) (k : key) (v : A) : key -> A :=
  fun x => if x =? k then v else f x.
Global Arguments upd {A} f k v _ : simpl never.

(* ------------------------------------------------------------------ *)
(** Lemmas *)

Lemma U64_spec x : u64b x = true <-> U64 x.
Proof. unfold u64b, U64. rewrite andb_true_iff, !Z.leb_le. tauto. Qed.

Lemma bind_ok {A B} (m : res A) (f : A -> res B) b :
  bind m f = Ok b <-> exists a, m = Ok a /\ f a = Ok b.
Proof.
  destruct m; simpl; split; intros H.
  - eauto.
  - destruct H as (a' & [= <-] & H). exact H.
  - discriminate.
  - destruct H as (a' & H & _). discriminate.
Qed.

Lemma guard_ok {A} b e (k : res A) a : guard b e k = Ok a <-> b = true /\ k = Ok a.
Proof. destruct b; simpl; split; intuition congruence. Qed.

Lemma of_option_ok {A} e (o : option A) a : of_option e o = Ok a <-> o = Some a.
Proof. destruct o; simpl; split; congruence. Qed.

Lemma checked_add_ok e a b c : checked_add e a b = Ok c <-> c = a + b /\ a + b <= U64_MAX.
Proof.
  unfold checked_add. destruct (Z.leb_spec (a + b) U64_MAX); split.
  - intros [= <-]. auto.
  - intros [-> _]. auto.
  - discriminate.
  - lia.
Qed.

Lemma checked_sub_ok e a b c : checked_sub e a b = Ok c <-> c = a - b /\ b <= a.
Proof.
  unfold checked_sub. destruct (Z.leb_spec b a); split.
  - intros [= <-]. auto.
  - intros [-> _]. auto.
  - discriminate.
  - lia.
Qed.

Lemma upd_same {A} (f : key -> A) k v : upd f k v k = v.
Proof. unfold upd. now rewrite Z.eqb_refl. Qed.
Lemma upd_other {A} (f : key -> A) k v x : x <> k -> upd f k v x = f x.
Proof. intros. unfold upd. destruct (Z.eqb_spec x k); congruence. Qed.

Lemma replace_nth_length {A} (l : list A) n x : length (replace_nth l n x) = length l.
Proof. revert n; induction l; intros [|n]; simpl; auto. Qed.

Lemma nth_error_replace_same {A} (l : list A) n x y :
  nth_error l n = Some y -> nth_error (replace_nth l n x) n = Some x.
Proof. revert n; induction l; intros [|n]; simpl; intros; try discriminate; auto. Qed.

Lemma nth_error_replace_other {A} (l : list A) n m x :
  n <> m -> nth_error (replace_nth l n x) m = nth_error l m.
Proof.
  revert n m; induction l; intros [|n] [|m]; simpl; intros; auto; try congruence.
Qed.

Lemma map_replace_nth {A B} (f : A -> B) (l : list A) n x :
  map f (replace_nth l n x) = replace_nth (map f l) n (f x).
Proof. revert n; induction l; intros [|n]; simpl; auto. now rewrite IHl. Qed.

Lemma map_remove_nth {A B} (f : A -> B) (l : list A) n :
  map f (remove_nth l n) = remove_nth (map f l) n.
Proof. revert n; induction l; intros [|n]; simpl; auto. now rewrite IHl. Qed.

Lemma replace_nth_self {A} (l : list A) n x :
  nth_error l n = Some x -> replace_nth l n x = l.
Proof.
  revert n; induction l; intros [|n]; simpl; intros H; try discriminate.
  - congruence.
  - now rewrite IHl.
Qed.

Lemma remove_nth_app {A} (l : list A) n :
  remove_nth l n = firstn n l ++ skipn (S n) l.
Proof.
  revert n; induction l; intros [|n]; simpl; auto.
  rewrite IHl. destruct l; reflexivity.
Qed.

Lemma In_remove_nth {A} (l : list A) n x : In x (remove_nth l n) -> In x l.
Proof.
  revert n; induction l; intros [|n]; simpl; auto.
  intros [->|H]; eauto.
Qed.

Lemma In_replace_nth {A} (l : list A) n x y : In y (replace_nth l n x) -> y = x \/ In y l.
Proof.
  revert n; induction l; intros [|n]; simpl; auto.
  - intros [<-|H]; auto.
  - intros [->|H]; auto. destruct (IHl _ H); auto.
Qed.

Lemma NoDup_remove_nth {A} (l : list A) n : NoDup l -> NoDup (remove_nth l n).
Proof.
  revert n; induction l; intros [|n] H; simpl; auto; inversion H; subst; auto.
  constructor; auto. intros Hin. apply H2. eapply In_remove_nth; eauto.
Qed.

Lemma Forall_replace_nth {A} (P : A -> Prop) (l : list A) n x :
  Forall P l -> P x -> Forall P (replace_nth l n x).
Proof.
  intros Hl Hx. rewrite Forall_forall in *. intros y Hy.
  apply In_replace_nth in Hy as [->|Hy]; auto.
Qed.

Lemma Forall_remove_nth {A} (P : A -> Prop) (l : list A) n :
  Forall P l -> Forall P (remove_nth l n).
Proof.
  intros Hl. rewrite Forall_forall in *. intros y Hy. eauto using In_remove_nth.
Qed.

Lemma NoDup_app_comm_cons {A} (l : list A) x : NoDup l -> ~ In x l -> NoDup (l ++ [x]).
Proof.
  induction l as [|y t IH]; cbn; intros Hn Hx.
  - constructor; auto.
  - inversion Hn; subst. constructor.
    + rewrite in_app_iff. cbn. intuition.
    + apply IH; intuition.
Qed.

(** Sum of a list of integers: the specification of "total". *)
Fixpoint sumZ (l : list Z) : Z := match l with [] => 0 | x :: t => x + sumZ t end.

Lemma sumZ_app l1 l2 : sumZ (l1 ++ l2) = sumZ l1 + sumZ l2.
Proof. induction l1; simpl; lia. Qed.

Lemma sumZ_replace l n x y :
  nth_error l n = Some y -> sumZ (replace_nth l n x) = sumZ l - y + x.
Proof.
  revert n; induction l; intros [|n]; simpl; intros H; try discriminate.
  - injection H as ->. lia.
  - rewrite (IHl _ H). lia.
Qed.

Lemma sumZ_remove l n y :
  nth_error l n = Some y -> sumZ (remove_nth l n) = sumZ l - y.
Proof.
  revert n; induction l; intros [|n]; simpl; intros H; try discriminate.
  - injection H as ->. lia.
  - rewrite (IHl _ H). lia.
Qed.

Lemma sumZ_nonneg l : Forall (fun x => 0 <= x) l -> 0 <= sumZ l.
Proof. induction 1; simpl; lia. Qed.

Lemma sumZ_elem_le l x : Forall (fun x => 0 <= x) l -> In x l -> x <= sumZ l.
Proof.
  induction 1; simpl; intros [].
  - subst. pose proof (sumZ_nonneg _ H0). lia.
  - specialize (IHForall H1). lia.
Qed.
