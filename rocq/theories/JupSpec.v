(** Specification vocabulary for the off-chain clients (C25, C42, C43): when cached data is up to date, when
    a calculator is in working order on chain, and what a carried-out quote does. *)
From Coq Require Import ZArith List Bool.
From Verif Require Import Base Ratio State Controller Spec Periph PeriphSpec Deploy Client Known Jup.
Import ListNotations.
Open Scope Z_scope.

(* ------------------------------------------------------------------ *)
(** * Cached data against the chain *)

(** The calculator program an off-chain calculator stands for (none for wSOL, which reads no account) and
    the stake pool account it reads. *)
Definition calc_program (dp : Deploy) (k : KnownCalc) : option CalcCfg :=
  match k with
  | KnLido _ => Some (dp_lido dp) | KnMarinade _ => Some (dp_marinade dp)
  | KnSpl s _ _ _ => Some (spl_cfg dp s) | KnWsol => None
  end.
Definition stake_pool_account (dp : Deploy) (k : KnownCalc) : key :=
  match k with
  | KnLido _ => cfg_pool (dp_lido dp) | KnMarinade _ => cfg_pool (dp_marinade dp)
  | KnSpl _ _ pool _ => pool | KnWsol => 0
  end.
(** The cached stake pool data is what the chain holds. *)
Definition calc_in_sync (dp : Deploy) (pw : PWorld) (k : KnownCalc) : Prop :=
  match k with
  | KnLido c => exists p, c = Some p /\ pdata pw (stake_pool_account dp k) = PLido p
  | KnMarinade c => exists p, c = Some p /\ pdata pw (stake_pool_account dp k) = PMarinade p
  | KnSpl _ _ _ c => exists p, c = Some p /\ pdata pw (stake_pool_account dp k) = PSpl p
  | KnWsol => True
  end.
(** On chain the calculator is in working order for that pool: the pool account is the genuine one (for the
    SPL family, the pool of this LST), and the manager has acknowledged the pool program's current code. *)
Definition calc_ready (dp : Deploy) (pw : PWorld) (k : KnownCalc) : Prop :=
  match calc_program dp k with
  | None => True
  | Some cfg =>
      genuine_pool cfg pw (stake_pool_account dp k) /\
      program_data cfg pw = Some (cc_progdata cfg) /\
      (exists s, trusted_slot cfg pw = Some s /\ deployed_slot cfg pw = Some s) /\
      (forall p, cc_kind cfg = KSpl -> pdata pw (stake_pool_account dp k) = PSpl p ->
         sp_pool_mint p = kn_lst_mint dp k)
  end.

(** The chain's fee account of [m], as the client caches it. *)
Definition chain_fee (F : FlatCfg) (pw : PWorld) (m : key) : option FeeAcc :=
  match pdata pw (fst (fd_find F m)) with PFlatFee b i o => Some (b, i, o) | _ => None end.
Definition chain_state (F : FlatCfg) (pw : PWorld) : option (key * Z) :=
  match pdata pw (ff_state F) with PFlatState m f => Some (m, f) | _ => None end.
(** The cached pricing data is what the chain holds: the state, and the fee accounts of [mints]. *)
Definition pricing_in_sync (dp : Deploy) (pw : PWorld) (p : KnownFlat) (mints : list key) : Prop :=
  kf_state p = chain_state (dp_flat dp) pw /\
  forall m, In m mints -> assoc m (kf_fees p) = Some (chain_fee (dp_flat dp) pw m).

(** The pool's reserves and fee accumulator accounts of a mint. *)
Definition reserves_of (D : Derive) (w : World) (m : key) : key := fst (d_find D POOL_STATE_ID (w_owner w m) m).
Definition fees_of (D : Derive) (w : World) (m : key) : key := fst (d_find D PROTOCOL_FEE_ID (w_owner w m) m).

(** One LST's cached data is what the chain holds. *)
Record entry_in_sync (dp : Deploy) (D : Derive) (w : World) (pw : PWorld) (ls : LstState) (ld : LstData) : Prop := {
  es_mint : kn_lst_mint dp (ld_calc ld) = ls_mint ls;
  es_calc : kn_program_id dp (ld_calc ld) = sol_value_calculator ls;
  es_pool : calc_in_sync dp pw (ld_calc ld);
  es_token_program : ld_token_program ld = w_owner w (ls_mint ls);
  es_reserves : ld_reserves ld = Some (balance w (reserves_of D w (ls_mint ls))) }.
(** The LSTs the client has data for. *)
Definition ready_mints (S : SPool) : list key :=
  flat_map (fun '(ls, x) => match x with Some _ => [ls_mint ls] | None => [] end) (combine (jp_list S) (jp_data S)).
(** The client's cache is what the chain holds: the pool, the list, the LP token supply, the epoch, and all
    LST and pricing data it has. (LSTs the client does not know have no data; nor has an unknown pricing
    program.) *)
Record in_sync (dp : Deploy) (D : Derive) (S : SPool) (w : World) (pw : PWorld) : Prop := {
  is_pool : jp_pool S = the_pool w;
  is_list : the_list w = Some (jp_list S);
  is_supply : forall ps, the_pool w = Some ps -> jp_lp_supply S = Some (supply w (lp_token_mint ps));
  is_epoch : jp_epoch S = pw_epoch pw;
  is_data : Forall2 (fun ls x => forall ld, x = Some ld -> entry_in_sync dp D w pw ls ld) (jp_list S) (jp_data S);
  is_pricing : forall p, jp_pricing S = Some p ->
    pricing_in_sync dp pw p (ready_mints S) /\
    forall ps, the_pool w = Some ps -> pricing_program ps = ff_id (dp_flat dp) }.

(** Every calculator the client has data for is in working order. *)
Definition calculators_ready (dp : Deploy) (pw : PWorld) (S : SPool) : Prop :=
  forall ld, In (Some ld) (jp_data S) -> calc_ready dp pw (ld_calc ld).

(* ------------------------------------------------------------------ *)
(** * What a carried-out quote does *)

(** The source account pays [paid], the destination account receives [received]; besides that only the
    pool's own accounts change: the source reserves gain [paid], the destination reserves lose [received]
    and a protocol fee, which goes to the fee accumulator. *)
Definition swapped (D : Derive) (w w' : World) (src_mint dst_mint src_acc dst_acc : key) (paid received : Z) : Prop :=
  w_mint w' = w_mint w /\
  exists fee, 0 <= fee /\ forall k, balance w' k = balance w k
    - on k src_acc paid + on k dst_acc received
    + on k (reserves_of D w src_mint) paid - on k (reserves_of D w dst_mint) (received + fee)
    + on k (fees_of D w dst_mint) fee.
(** [paid] LST leave the source account, to the reserves and the fee accumulator; [received] LP tokens are
    minted to the destination account. *)
Definition liquidity_added (D : Derive) (w w' : World) (mint lp_mint src_acc dst_acc : key) (paid received : Z) : Prop :=
  (forall M, supply w' M = supply w M + on M lp_mint received) /\
  exists fee, 0 <= fee /\ forall k, balance w' k = balance w k
    - on k src_acc paid + on k dst_acc received
    + on k (reserves_of D w mint) (paid - fee) + on k (fees_of D w mint) fee.
(** [paid] LP tokens of the source account are burned; [received] LST are paid out of the reserves, and a
    protocol fee to the fee accumulator. *)
Definition liquidity_removed (D : Derive) (w w' : World) (mint lp_mint src_acc dst_acc : key) (paid received : Z) : Prop :=
  (forall M, supply w' M = supply w M - on M lp_mint paid) /\
  exists fee, 0 <= fee /\ forall k, balance w' k = balance w k
    - on k src_acc paid + on k dst_acc received
    - on k (reserves_of D w mint) (received + fee) + on k (fees_of D w mint) fee.
Definition carried_out (D : Derive) (w w' : World) (p : SwapParams) (paid received : Z) : Prop :=
  exists ps, the_pool w = Some ps /\
  let src := p_source_mint p in let dst := p_destination_mint p in
  let sa := p_source_token_account p in let da := p_destination_token_account p in
  if src =? lp_token_mint ps then liquidity_removed D w w' dst src sa da paid received
  else if dst =? lp_token_mint ps then liquidity_added D w w' src dst sa da paid received
  else swapped D w w' src dst sa da paid received.

(** The user's parameters accept the quote: the exact side is the quoted one, the limit side is no stricter. *)
Definition accepts (p : SwapParams) (mode : SwapMode) (q : Quote) : Prop :=
  match mode with
  | ExactIn => p_in_amount p = q_in_amount q /\ 0 <= p_out_amount p <= q_out_amount q
  | ExactOut => p_out_amount p = q_out_amount q /\ q_in_amount q <= p_in_amount p <= U64_MAX
  end.
(** The user's side is in order: the source account is the authority's and holds the quoted input, the
    destination account is one of the destination mint; new LP tokens still fit the LP token's supply. *)
Definition funded (w : World) (p : SwapParams) (q : Quote) : Prop :=
  let src := p_source_mint p in let dst := p_destination_mint p in
  (exists t, w_tok w (p_source_token_account p) = Some t /\ ta_mint t = src /\ ta_owner t = p_authority p /\
     w_owner w (p_source_token_account p) = w_owner w src /\ q_in_amount q <= ta_amount t) /\
  (exists t, w_tok w (p_destination_token_account p) = Some t /\ ta_mint t = dst /\
     w_owner w (p_destination_token_account p) = w_owner w dst) /\
  supply_sound w src /\ supply_sound w dst /\
  (forall ps, the_pool w = Some ps -> dst = lp_token_mint ps -> supply w dst + q_out_amount q <= U64_MAX).
(** The pool would outgrow 64 bits: the source LST's calculator does not value the reserves with the quoted
    input added, or that value does not fit together with the rest of the pool (all other entries as
    recorded, except the destination LST of a swap, which counts at its present value). Judged by the
    client's own data. *)
Definition rest_of_pool (SP : SPool) (ps : PoolState) (ils : LstState) (dst : key) : Z :=
  total_sol_value ps - sol_value ils +
  (if dst =? lp_token_mint ps then 0
   else match find_ready_lst SP dst with
        | Ok (ols, old) =>
            match ld_reserves old with
            | Some b => match kn_lst_to_sol (jp_epoch SP) (ld_calc old) b with Ok (v, _) => v - sol_value ols | Err _ => 0 end
            | None => 0
            end
        | Err _ => 0
        end).
Definition outgrown (D : Derive) (SP : SPool) (w : World) (p : SwapParams) (q : Quote) : Prop :=
  exists ps ils ild, the_pool w = Some ps /\ p_source_mint p <> lp_token_mint ps /\
    find_ready_lst SP (p_source_mint p) = Ok (ils, ild) /\
    forall v hi, kn_lst_to_sol (jp_epoch SP) (ld_calc ild)
        (balance w (reserves_of D w (p_source_mint p)) + q_in_amount q) = Ok (v, hi) ->
      U64_MAX < rest_of_pool SP ps ils (p_destination_mint p) + v.
(** Why the chain may still refuse an accepted, up-to-date quote: the user's accounts are not in order; the
    deposit of a swap or of added liquidity makes the pool outgrow 64 bits; rounding of a swap would lose the
    pool a lamport; or a liquidity quote was for nothing. *)
Definition late_refusal (D : Derive) (SP : SPool) (w : World) (p : SwapParams) (q : Quote) (e : err) : Prop :=
  (e = TokenErr /\ ~ funded w p q) \/
  ((e = ExternalErr \/ e = Ctl MathError) /\ outgrown D SP w p q) \/
  (e = Ctl PoolWouldLoseSolValue /\
   forall ps, the_pool w = Some ps -> p_source_mint p <> lp_token_mint ps /\ p_destination_mint p <> lp_token_mint ps) \/
  (e = Ctl ZeroValue /\ q_out_amount q = 0 /\
   exists ps, the_pool w = Some ps /\ (p_source_mint p = lp_token_mint ps \/ p_destination_mint p = lp_token_mint ps)).

(* ------------------------------------------------------------------ *)
(** * Following the chain *)

(** The account at [k] as fetched from the chain; [None]: there is none. *)
Definition chain_account (w : World) (pw : PWorld) : AccMap := fun k =>
  if k =? POOL_STATE_ID then option_map FPool (the_pool w)
  else if k =? LST_STATE_LIST_ID then option_map FList (the_list w)
  else match w_tok w k, w_mint w k, pdata pw k with
       | Some t, _, _ => Some (FToken (ta_amount t))
       | None, Some m, _ => Some (FMint (m_supply m))
       | None, None, PEmpty => None
       | None, None, d => Some (FData d)
       end.
(** Every account in the map is as the chain has it (the map may lack accounts). *)
Definition truthful (w : World) (pw : PWorld) (m : AccMap) : Prop :=
  forall k a, m k = Some a -> chain_account w pw k = Some a.
(** Besides, every account the client asks for is in the map, if it exists. *)
Definition fetched (dp : Deploy) (D : Derive) (w : World) (pw : PWorld) (S : SPool) (m : AccMap) : Prop :=
  truthful w pw m /\ forall k, In k (get_accounts_to_update dp D S) -> m k = chain_account w pw k.

(** The list of known LSTs names the right token program of each mint, and stSOL, mSOL and wSOL as the LSTs
    of the Lido, Marinade and wSOL calculators. *)
Definition known_lsts_ok (dp : Deploy) (w : World) (lsts : list SanctumLst) : Prop :=
  forall s, In s lsts ->
    (w_mint w (sl_mint s) <> None -> sl_token_program s = w_owner w (sl_mint s)) /\
    match sl_pool s with
    | PiLido => sl_mint s = cfg_mint (dp_lido dp)
    | PiMarinade => sl_mint s = cfg_mint (dp_marinade dp)
    | PiReservePool => sl_mint s = WSOL_MINT
    | PiSpl _ _ | PiSPool => True
    end.

Definition set_epoch (S : SPool) (e : Z) : SPool :=
  mkSPool (jp_lp_supply S) (jp_pool S) (jp_list S) (jp_pricing S) (jp_data S) e.
(** A client's life beside the chain's: it starts from accounts of an initialised pool; then the chain and
    the stake pools and the flat-fee program move, updates come in, with truthful but perhaps incomplete
    accounts, and may fail, and the shared epoch is set to anything. *)
Inductive client_run (R : RatioLib) (dp : Deploy) (D : Derive) (lsts : list SanctumLst)
  : World -> PWorld -> SPool -> Prop :=
| cr_list w pw l e : reachable D w -> flat_reachable R (dp_flat dp) pw -> known_lsts_ok dp w lsts ->
    the_pool w <> None -> the_list w = Some l ->
    client_run R dp D lsts w pw (from_lst_state_list_account dp l lsts e)
| cr_init w pw l ps e S : reachable D w -> flat_reachable R (dp_flat dp) pw -> known_lsts_ok dp w lsts ->
    the_pool w = Some ps -> the_list w = Some l -> from_init_accounts dp l ps lsts e = Ok S ->
    client_run R dp D lsts w pw S
| cr_update w pw S m : client_run R dp D lsts w pw S -> truthful w pw m ->
    client_run R dp D lsts w pw (fst (update_full dp D m S))
| cr_chain w w' pw S : client_run R dp D lsts w pw S -> steps D w w' -> client_run R dp D lsts w' pw S
| cr_periph w pw pw' S : client_run R dp D lsts w pw S -> flat_steps R (dp_flat dp) pw pw' ->
    client_run R dp D lsts w pw' S
| cr_epoch w pw S e : client_run R dp D lsts w pw S -> client_run R dp D lsts w pw (set_epoch S e).

(** No account the client has data of has been closed since: stake pools, LST fee accounts. *)
Definition still_there (dp : Deploy) (pw : PWorld) (S : SPool) : Prop :=
  (forall ld, In (Some ld) (jp_data S) -> ld_calc ld <> KnWsol ->
     pdata pw (stake_pool_account dp (ld_calc ld)) <> PEmpty) /\
  (forall p m f, jp_pricing S = Some p -> In (m, Some f) (kf_fees p) -> chain_fee (dp_flat dp) pw m <> None).
(** The client has seen a pool state with the pool's present pricing program. *)
Definition pricing_known (S : SPool) (w : World) : Prop :=
  exists ps0 ps, jp_pool S = Some ps0 /\ the_pool w = Some ps /\ pricing_program ps0 = pricing_program ps.
