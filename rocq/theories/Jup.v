(** Model of libs/s-jup-interface: the off-chain quoting client (SPool) — quotes, instruction building and
    updates from fetched accounts. Only the main deployment (program_id = the controller's id) is modelled. *)
From Coq Require Import ZArith List Bool.
From Verif Require Import Base Ratio Calc State Controller Periph Deploy Client Known.
Import ListNotations.
Open Scope Z_scope.

(** lib.rs:24-29 *)
Record LstData := mkLstData { ld_calc : KnownCalc; ld_reserves : option Z; ld_token_program : key }.
(** lib.rs:34-48, without the constant addresses; [jp_epoch] is the shared epoch counter the calculators
    hold (init.rs:62-67). Account contents that do not parse are refused before they are stored (update.rs,
    init.rs), so parsed values are kept. *)
Record SPool := mkSPool {
  jp_lp_supply : option Z;
  jp_pool : option PoolState;
  jp_list : list LstState;
  jp_pricing : option KnownFlat;
  jp_data : list (option LstData);
  jp_epoch : Z }.
Definition set_lp_supply (S : SPool) x := mkSPool x (jp_pool S) (jp_list S) (jp_pricing S) (jp_data S) (jp_epoch S).
Definition set_pricing (S : SPool) x := mkSPool (jp_lp_supply S) (jp_pool S) (jp_list S) x (jp_data S) (jp_epoch S).
Definition set_pool (S : SPool) x := mkSPool (jp_lp_supply S) x (jp_list S) (jp_pricing S) (jp_data S) (jp_epoch S).
Definition set_list (S : SPool) x := mkSPool (jp_lp_supply S) (jp_pool S) x (jp_pricing S) (jp_data S) (jp_epoch S).
Definition set_data (S : SPool) x := mkSPool (jp_lp_supply S) (jp_pool S) (jp_list S) (jp_pricing S) x (jp_epoch S).

(** lib.rs:108-125 *)
Fixpoint find_ready_from (m : key) (l : list LstState) (d : list (option LstData)) : res (LstState * LstData) :=
  match l, d with
  | ls :: l', x :: d' =>
      if ls_mint ls =? m then ld <- of_option NotReady x ;; Ok (ls, ld) else find_ready_from m l' d'
  | _, _ => Err NotReady
  end.
Definition find_ready_lst (S : SPool) (m : key) : res (LstState * LstData) :=
  find_ready_from m (jp_list S) (jp_data S).

(** lib.rs:88-104 *)
Definition jp_pool_state (S : SPool) : res PoolState := of_option NotReady (jp_pool S).
Definition jp_pricing_prog (S : SPool) : res KnownFlat := of_option NotReady (jp_pricing S).

(** jupiter_amm_interface::Quote; the percentage is kept as an exact fraction (numerator, denominator). *)
Record Quote := mkQuote {
  q_in_amount : Z; q_out_amount : Z; q_fee_mint : key; q_fee_amount : Z; q_fee_pct : Z * Z }.

(** jupiter_amm_interface SwapParams (the fields used) *)
Record SwapParams := mkSwapParams {
  p_in_amount : Z; p_out_amount : Z; p_source_mint : key; p_destination_mint : key;
  p_source_token_account : key; p_destination_token_account : key; p_authority : key }.
Inductive SwapMode := ExactIn | ExactOut.

Section WithDeploy.
Variable R : RatioLib.
Variable dp : Deploy.

(** core/common.rs:12-27 *)
Definition apply_sync_sol_value (epoch : Z) (ps : PoolState) (ls : LstState) (ld : LstData)
  : res (PoolState * LstState * Z) :=
  bal <- of_option NotReady (ld_reserves ld) ;;
  r <- kn_lst_to_sol epoch (ld_calc ld) bal ;;
  '(ps', ls') <- sync_sol_value_with_retval ps ls (fst r) ;;
  Ok (ps', ls', bal).

(** core/common.rs:32-46 and AmtsAfterFeeBuilder (sanctum_token_ratio, not in /repo: the amount after fees
    must not exceed the amount before). A zero denominator makes the Decimal division fail. *)
Definition calc_quote_fees (epoch : Z) (before after : Z) (k : KnownCalc) : res (Z * (Z * Z)) :=
  guard (after <=? before) RatioMathErr (
  guard (negb (before =? 0)) RatioMathErr (
  r <- kn_sol_to_lst R epoch k (before - after) ;;
  Ok (fst r, (before - after, before)))).

(** core/swap_exact_in.rs:29-100 *)
Definition quote_swap_exact_in (S : SPool) (input_mint output_mint : key) (amount : Z) : res Quote :=
  let ep := jp_epoch S in
  ps <- jp_pool_state S ;;
  pp <- jp_pricing_prog S ;;
  '(ils, ild) <- find_ready_lst S input_mint ;;
  guard (negb (u8bool_is_true (is_input_disabled ils))) (Ctl LstInputDisabled) (
  '(ps, _, _) <- apply_sync_sol_value ep ps ils ild ;;
  '(ols, old) <- find_ready_lst S output_mint ;;
  '(ps, _, reserves) <- apply_sync_sol_value ep ps ols old ;;
  r <- kn_lst_to_sol ep (ld_calc ild) amount ;;
  let in_sol := fst r in
  guard (negb (in_sol =? 0)) (Ctl ZeroValue) (
  out_sol <- kf_quote_exact_in pp input_mint output_mint in_sol ;;
  guard (out_sol <=? in_sol) (Ctl PoolWouldLoseSolValue) (
  r <- kn_sol_to_lst R ep (ld_calc old) out_sol ;;
  let dst_out := fst r in
  guard (negb (dst_out =? 0)) (Ctl ZeroValue) (
  fee <- calc_swap_protocol_fees in_sol out_sol dst_out (trading_protocol_fee_bps ps) ;;
  total <- checked_add (Ctl MathError) dst_out fee ;;
  guard (total <=? reserves) (Ctl NotEnoughLiquidity) (
  '(fee_amount, fee_pct) <- calc_quote_fees ep in_sol out_sol (ld_calc old) ;;
  Ok (mkQuote amount dst_out output_mint fee_amount fee_pct)))))).

(** core/swap_exact_out.rs:25-98 *)
Definition quote_swap_exact_out (S : SPool) (input_mint output_mint : key) (amount : Z) : res Quote :=
  let ep := jp_epoch S in
  ps <- jp_pool_state S ;;
  pp <- jp_pricing_prog S ;;
  '(ils, ild) <- find_ready_lst S input_mint ;;
  guard (negb (u8bool_is_true (is_input_disabled ils))) (Ctl LstInputDisabled) (
  '(ps, _, _) <- apply_sync_sol_value ep ps ils ild ;;
  '(ols, old) <- find_ready_lst S output_mint ;;
  '(ps, _, reserves) <- apply_sync_sol_value ep ps ols old ;;
  r <- kn_lst_to_sol ep (ld_calc old) amount ;;
  let out_sol := snd r in
  guard (negb (out_sol =? 0)) (Ctl ZeroValue) (
  in_sol <- kf_quote_exact_out R pp input_mint output_mint out_sol ;;
  guard (out_sol <=? in_sol) (Ctl PoolWouldLoseSolValue) (
  r <- kn_sol_to_lst R ep (ld_calc ild) in_sol ;;
  let src_in := snd r in
  guard (negb (src_in =? 0)) (Ctl ZeroValue) (
  fee <- calc_swap_protocol_fees in_sol out_sol amount (trading_protocol_fee_bps ps) ;;
  total <- checked_add (Ctl MathError) amount fee ;;
  guard (total <=? reserves) (Ctl NotEnoughLiquidity) (
  '(fee_amount, fee_pct) <- calc_quote_fees ep in_sol out_sol (ld_calc old) ;;
  Ok (mkQuote src_in amount output_mint fee_amount fee_pct)))))).

(** core/add_liquidity.rs:28-86 *)
Definition quote_add_liquidity (S : SPool) (input_mint : key) (amount : Z) : res Quote :=
  let ep := jp_epoch S in
  ps <- jp_pool_state S ;;
  pp <- jp_pricing_prog S ;;
  lp_supply <- of_option NotReady (jp_lp_supply S) ;;
  '(ils, ild) <- find_ready_lst S input_mint ;;
  guard (negb (u8bool_is_true (is_input_disabled ils))) (Ctl LstInputDisabled) (
  '(ps, _, _) <- apply_sync_sol_value ep ps ils ild ;;
  r <- kn_lst_to_sol ep (ld_calc ild) amount ;;
  let before := fst r in
  after <- kf_quote_mint pp before ;;
  guard (after <=? before) (Ctl PoolWouldLoseSolValue) (
  lp <- calc_lp_tokens_to_mint lp_supply (total_sol_value ps) after ;;
  '(fee_amount, fee_pct) <- calc_quote_fees ep before after (ld_calc ild) ;;
  Ok (mkQuote amount lp input_mint fee_amount fee_pct))).

(** core/remove_liquidity.rs:29-100 *)
Definition quote_remove_liquidity (S : SPool) (output_mint : key) (amount : Z) : res Quote :=
  let ep := jp_epoch S in
  ps <- jp_pool_state S ;;
  pp <- jp_pricing_prog S ;;
  lp_supply <- of_option NotReady (jp_lp_supply S) ;;
  '(ols, old) <- find_ready_lst S output_mint ;;
  '(ps, _, reserves) <- apply_sync_sol_value ep ps ols old ;;
  before <- calc_lp_tokens_sol_value lp_supply (total_sol_value ps) amount ;;
  after <- kf_quote_redeem pp before ;;
  guard (after <=? before) (Ctl PoolWouldLoseSolValue) (
  r <- kn_sol_to_lst R ep (ld_calc old) after ;;
  let to_user := fst r in
  fee <- calc_remove_liquidity_protocol_fees before after to_user (lp_protocol_fee_bps ps) ;;
  total <- checked_add (Ctl MathError) to_user fee ;;
  guard (total <=? reserves) (Ctl NotEnoughLiquidity) (
  '(fee_amount, fee_pct) <- calc_quote_fees ep before after (ld_calc old) ;;
  Ok (mkQuote amount to_user output_mint fee_amount fee_pct))).

(** core/mod.rs:46-65 *)
Definition quote_full (S : SPool) (mode : SwapMode) (input_mint output_mint : key) (amount : Z) : res Quote :=
  ps <- jp_pool_state S ;;
  let lp := lp_token_mint ps in
  if input_mint =? lp then
    match mode with ExactOut => Err NotReady | ExactIn => quote_remove_liquidity S output_mint amount end
  else if output_mint =? lp then
    match mode with ExactOut => Err NotReady | ExactIn => quote_add_liquidity S input_mint amount end
  else match mode with
       | ExactIn => quote_swap_exact_in S input_mint output_mint amount
       | ExactOut => quote_swap_exact_out S input_mint output_mint amount
       end.

(* ------------------------------------------------------------------ *)
(** * Instructions *)

Variable D : Derive.

(** What the builders of s-controller-lib see of the SPool: its pool state and list accounts, and the mints'
    token programs the list of known LSTs gives (MintWithTokenProgram). *)
Definition jp_view (S : SPool) : World :=
  mkWorld (upd (fun _ => None) POOL_STATE_ID (jp_pool S))
          (upd (fun _ => None) LST_STATE_LIST_ID (Some (jp_list S)))
          (fun _ => None) (fun _ => None) (fun _ => None) (fun _ => None)
          (fun m => match find_ready_lst S m with Ok (_, ld) => ld_token_program ld | Err _ => SYSTEM_PROGRAM_ID end)
          (fun _ => false).

(** core/swap_exact_in.rs:129-184 *)
Definition swap_exact_in_ix (S : SPool) (p : SwapParams) : res TopIx :=
  '(_, sld) <- find_ready_lst S (p_source_mint p) ;;
  '(_, dld) <- find_ready_lst S (p_destination_mint p) ;;
  ps <- jp_pool_state S ;;
  pp <- jp_pricing_prog S ;;
  price_accs <- kf_swap_accounts dp pp (p_source_mint p) (p_destination_mint p) ;;
  client_swap_exact_in D (jp_view S) (p_authority p) (p_source_token_account p)
    (p_destination_token_account p) (p_source_mint p) (p_destination_mint p) LST_STATE_LIST_ID
    (p_out_amount p) (p_in_amount p) (kn_ix_accounts dp (ld_calc sld)) (kn_ix_accounts dp (ld_calc dld))
    price_accs (pricing_program ps).
(** core/swap_exact_out.rs:100-154 *)
Definition swap_exact_out_ix (S : SPool) (p : SwapParams) : res TopIx :=
  '(_, sld) <- find_ready_lst S (p_source_mint p) ;;
  '(_, dld) <- find_ready_lst S (p_destination_mint p) ;;
  ps <- jp_pool_state S ;;
  pp <- jp_pricing_prog S ;;
  price_accs <- kf_swap_accounts dp pp (p_source_mint p) (p_destination_mint p) ;;
  client_swap_exact_out D (jp_view S) (p_authority p) (p_source_token_account p)
    (p_destination_token_account p) (p_source_mint p) (p_destination_mint p) LST_STATE_LIST_ID
    (p_in_amount p) (p_out_amount p) (kn_ix_accounts dp (ld_calc sld)) (kn_ix_accounts dp (ld_calc dld))
    price_accs (pricing_program ps).
(** core/add_liquidity.rs:88-141 *)
Definition add_liquidity_ix (S : SPool) (p : SwapParams) : res TopIx :=
  '(_, sld) <- find_ready_lst S (p_source_mint p) ;;
  pp <- jp_pricing_prog S ;;
  client_add_liquidity D (jp_view S) (p_authority p) (p_source_token_account p)
    (p_destination_token_account p) POOL_STATE_ID LST_STATE_LIST_ID (p_source_mint p)
    (p_in_amount p) (p_out_amount p) (kn_ix_accounts dp (ld_calc sld)) (kf_mint_accounts (p_source_mint p)).
(** core/remove_liquidity.rs:102-161 *)
Definition remove_liquidity_ix (S : SPool) (p : SwapParams) : res TopIx :=
  '(_, dld) <- find_ready_lst S (p_destination_mint p) ;;
  pp <- jp_pricing_prog S ;;
  client_remove_liquidity D (jp_view S) (p_authority p) (p_destination_token_account p)
    (p_source_token_account p) POOL_STATE_ID LST_STATE_LIST_ID (p_destination_mint p)
    (p_in_amount p) (p_out_amount p) (kn_ix_accounts dp (ld_calc dld))
    (kf_redeem_accounts dp (p_destination_mint p)).

(** core/mod.rs:21-44 *)
Definition swap_ix (S : SPool) (p : SwapParams) (mode : SwapMode) : res TopIx :=
  ps <- jp_pool_state S ;;
  let lp := lp_token_mint ps in
  if p_source_mint p =? lp then
    match mode with ExactOut => Err NotReady | ExactIn => remove_liquidity_ix S p end
  else if p_destination_mint p =? lp then
    match mode with ExactOut => Err NotReady | ExactIn => add_liquidity_ix S p end
  else match mode with
       | ExactIn => swap_exact_in_ix S p
       | ExactOut => swap_exact_out_ix S p
       end.

(** core/mod.rs:86-97 *)
Definition get_reserve_mints (S : SPool) : list key :=
  map ls_mint (jp_list S) ++ match jp_pool S with Some ps => [lp_token_mint ps] | None => [] end.

(* ------------------------------------------------------------------ *)
(** * Updates *)

(** lib.rs:67-86 *)
Definition pool_reserves_account (ls : LstState) (ld : LstData) : option key :=
  d_create D POOL_STATE_ID (ld_token_program ld) (ls_mint ls) (pool_reserves_bump ls).

(** Result::and *)
Definition and_res (a b : res unit) : res unit := match a with Ok _ => b | Err e => Err e end.

(** update.rs:147-177, one index *)
Definition update_lst_data (m : AccMap) (ls : LstState) (ld : LstData) : LstData * res unit :=
  let '(c, r) := kn_update dp m (ld_calc ld) in
  match pool_reserves_account ls ld with
  | None => (mkLstData c (ld_reserves ld) (ld_token_program ld), and_res r (Err BadSeeds))
  | Some ata =>
      match m ata with
      | None => (mkLstData c (ld_reserves ld) (ld_token_program ld), and_res r (Ok tt))
      | Some (FToken b) => (mkLstData c (Some b) (ld_token_program ld), and_res r (Ok tt))
      | Some _ => (mkLstData c (ld_reserves ld) (ld_token_program ld), and_res r (Err InvalidData))
      end
  end.
(** update.rs:138-179; every index is tried, the first error is reported. [lst_state_list[i]] panics when
    the list is shorter than the data. *)
Fixpoint update_data_from (m : AccMap) (l : list LstState) (d : list (option LstData))
  : list (option LstData) * res unit :=
  match d with
  | [] => ([], Ok tt)
  | None :: d' => let '(d'', r) := update_data_from m (tl l) d' in (None :: d'', r)
  | Some ld :: d' =>
      match l with
      | [] => (d, Err Panic)
      | ls :: l' =>
          let '(ld', r) := update_lst_data m ls ld in
          let '(d'', r') := update_data_from m l' d' in
          (Some ld' :: d'', and_res r r')
      end
  end.
Definition update_lst_data_list (m : AccMap) (S : SPool) : SPool * res unit :=
  let '(d, r) := update_data_from m (jp_list S) (jp_data S) in (set_data S d, r).

(** update.rs:73-81 *)
Definition update_pricing_prog (m : AccMap) (S : SPool) : SPool * res unit :=
  match jp_pricing S with
  | None => (S, Ok tt)
  | Some pp => let '(pp', r) := kf_update dp m pp in (set_pricing S (Some pp'), r)
  end.

Definition same_entry (old new : LstState) : bool :=
  (ls_mint old =? ls_mint new) && (sol_value_calculator old =? sol_value_calculator new).
(** update.rs:219-229: the first data entry for that mint and calculator *)
Fixpoint find_data (mint calc : key) (d : list (option LstData)) : option LstData :=
  match d with
  | [] => None
  | Some ld :: t =>
      if (kn_lst_mint dp (ld_calc ld) =? mint) && (kn_program_id dp (ld_calc ld) =? calc) then Some ld
      else find_data mint calc t
  | None :: t => find_data mint calc t
  end.
(** update.rs:217-247, one position *)
Definition rebuilt_entry (all : list (option LstData)) (old : LstState) (x : option LstData) (new : LstState)
  : option LstData :=
  if negb (ls_mint old =? ls_mint new) then find_data (ls_mint new) (sol_value_calculator new) all
  else match x with
       | Some ld => if kn_program_id dp (ld_calc ld) =? sol_value_calculator new then Some ld else None
       | None => None
       end.
(** update.rs:208-251: positions beyond the shorter of the lists become None *)
Fixpoint rebuild (all : list (option LstData)) (olds : list LstState) (xs : list (option LstData))
  (news : list LstState) : list (option LstData) :=
  match news with
  | [] => []
  | n :: news' =>
      match olds, xs with
      | o :: olds', x :: xs' => rebuilt_entry all o x n :: rebuild all olds' xs' news'
      | _, _ => None :: rebuild all [] [] news'
      end
  end.
(** update.rs:182-256 *)
Definition update_lst_state_list (m : AccMap) (S : SPool) : SPool * res unit :=
  match m LST_STATE_LIST_ID with
  | None => (S, Ok tt)
  | Some (FList new) =>
      if (Nat.eqb (length (jp_list S)) (length new)) &&
         forallb (fun '(o, n) => same_entry o n) (combine (jp_list S) new)
      then (set_list S new, Ok tt)
      else (set_list (set_data S (rebuild (jp_data S) (jp_list S) (jp_data S) new)) new, Ok tt)
  | Some _ => (S, Err (Ctl InvalidLstStateListData))
  end.

(** utils.rs:14-22 with s-pricing-prog-aggregate/src/lib.rs:22-33: only the flat-fee program is known *)
Definition try_pricing_prog (ps : PoolState) (l : list LstState) : option KnownFlat :=
  if pricing_program ps =? ff_id (dp_flat dp) then Some (kf_new (map ls_mint l)) else None.

(** update.rs:280-315. When the new pricing program is unknown the error is dropped ([.ok()]) and the
    result is Ok. *)
Definition update_pool_state (m : AccMap) (S : SPool) : SPool * res unit :=
  match m POOL_STATE_ID with
  | None => (S, Ok tt)
  | Some (FPool new) =>
      let reinit := match jp_pricing S with
                    | None => true
                    | Some _ => match jp_pool S with
                                | None => false
                                | Some old => negb (pricing_program old =? pricing_program new)
                                end
                    end in
      if reinit then
        match try_pricing_prog new (jp_list S) with
        | None => (set_pool (set_pricing S None) (Some new), Ok tt)
        | Some pp => let '(pp', r) := kf_update dp m pp in (set_pool (set_pricing S (Some pp')) (Some new), r)
        end
      else (set_pool S (Some new), Ok tt)
  | Some _ => (S, Err (Ctl InvalidPoolStateData))
  end.

(** update.rs:259-277 *)
Definition update_lp_token_supply (m : AccMap) (S : SPool) : SPool * res unit :=
  match jp_pool S with
  | None => (S, Ok tt)
  | Some ps =>
      match m (lp_token_mint ps) with
      | None => (S, Ok tt)
      | Some (FMint s) => (set_lp_supply S (Some s), Ok tt)
      | Some _ => (S, Err InvalidData)
      end
  end.

(** update.rs:29-46: everything is tried, the first error is reported *)
Definition update_full (m : AccMap) (S : SPool) : SPool * res unit :=
  let '(S1, r1) := update_lst_data_list m S in
  let '(S2, r2) := update_pricing_prog m S1 in
  let '(S3, r3) := update_lst_state_list m S2 in
  let '(S4, r4) := update_pool_state m S3 in
  let '(S5, r5) := update_lp_token_supply m S4 in
  (S5, and_res (and_res (and_res (and_res r1 r2) r3) r4) r5).

(** update.rs:85-100 *)
Definition lst_accounts_to_update (ls : LstState) (x : option LstData) : list key :=
  match x with
  | None => []
  | Some ld => kn_accounts_to_update dp (ld_calc ld) ++
               match pool_reserves_account ls ld with Some a => [a] | None => [] end
  end.
(** update.rs:13-26 *)
Definition get_accounts_to_update (S : SPool) : list key :=
  [LST_STATE_LIST_ID; POOL_STATE_ID]
  ++ match jp_pricing S with Some pp => kf_accounts_to_update dp pp | None => [] end
  ++ flat_map (fun '(ls, x) => lst_accounts_to_update ls x) (combine (jp_list S) (jp_data S))
  ++ match jp_pool S with Some ps => [lp_token_mint ps] | None => [] end.

(* ------------------------------------------------------------------ *)
(** * Initialisation *)

(** sanctum_lst_list (not in /repo): mint, pool kind, token program of each known LST *)
Inductive PoolInfo :=
| PiLido | PiMarinade | PiReservePool | PiSpl (which : SplWhich) (pool : key) | PiSPool.
Record SanctumLst := mkSanctumLst { sl_mint : key; sl_pool : PoolInfo; sl_token_program : key }.

(** utils.rs:24-80 *)
Definition try_lst_data (lsts : list SanctumLst) (ls : LstState) : option LstData :=
  match find (fun s => sl_mint s =? ls_mint ls) lsts with
  | None => None
  | Some s =>
      match (match sl_pool s with
             | PiLido => Some (KnLido None)
             | PiMarinade => Some (KnMarinade None)
             | PiReservePool => Some KnWsol
             | PiSpl w pool => Some (KnSpl w (ls_mint ls) pool None)
             | PiSPool => None
             end) with
      | None => None
      | Some c => if sol_value_calculator ls =? kn_program_id dp c
                  then Some (mkLstData c None (sl_token_program s)) else None
      end
  end.

(** init.rs:62-91 *)
Definition from_lst_state_list_account (l : list LstState) (lsts : list SanctumLst) (epoch : Z) : SPool :=
  mkSPool None None l None (map (try_lst_data lsts) l) epoch.
(** init.rs:94-124 *)
Definition from_init_accounts (l : list LstState) (ps : PoolState) (lsts : list SanctumLst) (epoch : Z) : res SPool :=
  pp <- of_option NotReady (try_pricing_prog ps l) ;;
  Ok (set_pricing (set_pool (from_lst_state_list_account l lsts epoch) (Some ps)) (Some pp)).

End WithDeploy.
