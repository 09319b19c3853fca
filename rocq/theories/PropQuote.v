(** C60: what the chain accepts, the client quotes. The converse of C25: an instruction the client built that the chain
    carries out was quoted by the client's data, at amounts within the user's limits, and does what the quote says;
    where the client refuses to quote, it is for one of the reasons listed in [overcautious] (QuoteSpec.v). *)
From Coq Require Import ZArith List Bool Lia.
From Verif Require Import Base Ratio Calc State Controller Spec InvProofs ShapeProofs Concrete ConcreteReach
  Periph PeriphSpec PropCalc PropFlat Client ClientSpec ClientProofs PropClient Deploy Known Jup JupSpec JupProofs JupPool PropJup
  QuoteSpec JupBack.
Import ListNotations.
Open Scope Z_scope.

(** Every instruction the client builds from an up-to-date cache and the chain carries out (paying the user, not the
    pool's own reserves): the pool is active, and either the client quotes that trade, the quote is within the limits
    given and exactly what is done, or it refuses the quote for a listed reason. *)
Theorem C60_quoted R dp pw other D C SP w p mode t w' :
  ratio_lib_ok R -> pools_typed pw -> deploy_ok dp -> flat_derive_ok (dp_flat dp) -> flat_reachable R (dp_flat dp) pw ->
  derive_ok D -> reachable D w -> in_sync dp D SP w pw -> Z.of_nat (length (jp_list SP)) <= U32_MAX ->
  calculators_ready dp pw SP ->
  p_source_mint p <> p_destination_mint p -> U64 (p_in_amount p) -> U64 (p_out_amount p) ->
  p_destination_token_account p <> reserves_of D w (p_destination_mint p) ->
  swap_ix dp D SP p mode = Ok t -> run D (deployed_env R dp pw other) C w t = Ok w' ->
  pool_active w /\
  match quote_full R SP mode (p_source_mint p) (p_destination_mint p) (asked p mode) with
  | Ok q => accepts p mode q /\ carried_out D w w' p (q_in_amount q) (q_out_amount q)
  | Err e => overcautious R SP mode (p_source_mint p) (p_destination_mint p) (asked p mode) e
  end.
Proof.
  intros HR HT HDp HF HP HD Hreach Hsync Hlen Hready Hne Uin Uout Hda Ht Hrun.
  assert (HQ : pool_active w /\
    match quote_full R SP mode (p_source_mint p) (p_destination_mint p) (asked p mode) with
    | Ok q => accepts p mode q
    | Err e => overcautious R SP mode (p_source_mint p) (p_destination_mint p) (asked p mode) e
    end).
  { pose proof Ht as Ht0. unfold swap_ix in Ht0. apply bind_ok in Ht0 as (ps & Hps & Ht0).
    assert (Hp : the_pool w = Some ps).
    { unfold jp_pool_state in Hps. rewrite (is_pool _ _ _ _ _ Hsync) in Hps. apply of_option_ok in Hps. exact Hps. }
    unfold quote_full. rewrite Hps. cbn [bind] in *.
    destruct (Z.eqb_spec (p_source_mint p) (lp_token_mint ps)) as [Es|Es].
    - destruct mode; [|discriminate]. cbn [asked].
      exact (remove_back R dp pw other D C SP w HR HT HDp HD Hreach Hsync Hlen Hready p ps w' t Hp Uin Uout Hrun Es Hda Ht0).
    - destruct (Z.eqb_spec (p_destination_mint p) (lp_token_mint ps)) as [Ed|Ed].
      + destruct mode; [|discriminate]. cbn [asked].
        exact (add_back R dp pw other D C SP w HT HDp HD Hreach Hsync Hlen Hready p ps w' t Hp Uin Uout Hrun Es Ed Ht0).
      + destruct mode; cbn [asked].
        * exact (swap_in_back R dp pw other D C SP w HT HDp HF HP HD Hreach Hsync Hlen Hready p ps w' t Hp Hne Uin Uout Hrun Es Ed Ht0).
        * exact (swap_out_back R dp pw other D C SP w HT HDp HF HP HD Hreach Hsync Hlen Hready p ps w' t Hp Hne Uin Uout Hrun Es Ed Ht0). }
  destruct HQ as (Hact & HQ). split; [exact Hact|].
  destruct (quote_full R SP mode _ _ _) as [q|e] eqn:Hq; [|exact HQ]. split; [exact HQ|].
  assert (HU : U64 (asked p mode)) by (destruct mode; assumption).
  destruct (C25_quote R dp pw other D C SP w p mode q HR HT HDp HF HP HD Hreach Hsync Hlen Hready Hact Hne HU Hq HQ) as (t' & Ht' & Ho).
  assert (t' = t) as -> by congruence. rewrite Hrun in Ho. exact Ho.
Qed.

(** So where the client has no quote, and not for a listed reason, no limits, accounts or signer make the chain accept
    the trade. *)
Corollary C60_refused R dp pw other D C SP w mode src dst amount e :
  ratio_lib_ok R -> pools_typed pw -> deploy_ok dp -> flat_derive_ok (dp_flat dp) -> flat_reachable R (dp_flat dp) pw ->
  derive_ok D -> reachable D w -> in_sync dp D SP w pw -> Z.of_nat (length (jp_list SP)) <= U32_MAX ->
  calculators_ready dp pw SP -> src <> dst ->
  quote_full R SP mode src dst amount = Err e -> ~ overcautious R SP mode src dst amount e ->
  forall p t w', p_source_mint p = src -> p_destination_mint p = dst -> asked p mode = amount ->
    U64 (p_in_amount p) -> U64 (p_out_amount p) -> p_destination_token_account p <> reserves_of D w dst ->
    swap_ix dp D SP p mode = Ok t -> run D (deployed_env R dp pw other) C w t <> Ok w'.
Proof.
  intros HR HT HDp HF HP HD Hreach Hsync Hlen Hready Hne Hq Hno p t w' <- <- <- Uin Uout Hda Ht Hrun.
  destruct (C60_quoted R dp pw other D C SP w p mode t w' HR HT HDp HF HP HD Hreach Hsync Hlen Hready Hne Uin Uout Hda Ht Hrun)
    as (_ & H). rewrite Hq in H. exact (Hno H).
Qed.

(** The four trades of C25's case: the chain carries each out, the destination is not the pool's, and the client quoted
    just what was done; at a limit above the quote the chain refuses. *)
Example C60_case :
  outcome pw1 client2 (params MA MB UA UB 10000 4991) ExactIn = Ok (10000, 4991) /\
  quoted client2 (params MA MB UA UB 10000 4991) ExactIn = Some (10000, 4991) /\
  outcome pw1 client2 (params MA MB UA UB 10000 4992) ExactIn = Err (Ctl SlippageToleranceExceeded) /\
  outcome pw1 client2 (params MB MA UB UA 502 1000) ExactOut = Ok (502, 1000) /\
  quoted client2 (params MB MA UB UA 502 1000) ExactOut = Some (502, 1000) /\
  outcome pw1 client2 (params MB MA UB UA 501 1000) ExactOut = Err (Ctl SlippageToleranceExceeded) /\
  outcome pw1 client2 (params MA LP UA UL 10000 9859) ExactIn = Ok (10000, 9859) /\
  quoted client2 (params MA LP UA UL 10000 9859) ExactIn = Some (10000, 9859) /\
  outcome pw1 client2 (params LP MB UL UB 10000 5070) ExactIn = Ok (10000, 5070) /\
  quoted client2 (params LP MB UL UB 10000 5070) ExactIn = Some (10000, 5070) /\
  forallb (fun k => negb (k =? reserves_of D0 W8 MA) && negb (k =? reserves_of D0 W8 MB)) [UA; UB; UL] = true.
Proof. vm_compute. repeat split. Qed.

(** A rebate: MB's input fee is -5 and output fee 0, MA's -1 and 20 (in 1/10000), so a swap of MA for MB gives out more
    than comes in. *)
Definition pwr : PWorld := put_acc (put_acc pw1_1 fee_a (mkPAcc PP (PFlatFee 255 (-1) 20))) fee_b (mkPAcc PP (PFlatFee 255 (-5) 0)).
Definition clr : SPool := fst (update_full dp1 D0 (chain_account W8 pwr) (fst (update_full dp1 D0 (chain_account W8 pwr) client0))).
(** The first listed reason is met: the chain carries that swap out, and the client refuses to quote it. *)
Example C60_rebate :
  outcome pwr clr (params MA MB UA UB 10000 1) ExactIn = Ok (10000, 5005) /\
  quote_full ref_ratio_lib clr ExactIn MA MB 10000 = Err (Ctl PoolWouldLoseSolValue).
Proof. vm_compute. split; reflexivity. Qed.
