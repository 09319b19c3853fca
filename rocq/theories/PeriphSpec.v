(** Specification vocabulary for the calculator and pricing programs. *)
From Coq Require Import ZArith List Bool.
From Verif Require Import Base Ratio State Controller Spec Periph.
Import ListNotations.
Open Scope Z_scope.

(** ceil (a / b) and floor (a / b) of rationals, as integers *)
Definition up (a b : Z) : Z := - ((- a) / b).
Definition down (a b : Z) : Z := a / b.
(** [share x n d]: floor of x*n/d, where a rate with a zero on either side is worth nothing. *)
Definition share (x n d : Z) : Z := if (n =? 0) || (d =? 0) then 0 else down (x * n) d.

(** What [x] pool tokens are worth in lamports.
    wSOL: one to one. Lido: pro rata, rounded down. SPL: the withdrawal fee, rounded up, is taken in pool
    tokens; the rest pro rata, rounded down. Marinade: pro rata, rounded down; then the fee, rounded
    down, is taken in lamports. *)
Definition marinade_total (p : MarinadePool) : Z :=
  Z.max 0 (ma_total_active_balance p + ma_delayed_unstake_cooling_down p
           + ma_emergency_cooling_down p + ma_available_reserve_balance p
           - ma_circulating_ticket_balance p).
Definition spl_fee (p : SplPool) (x : Z) : Z :=
  if sp_fee_denom p =? 0 then 0 else up (x * sp_fee_num p) (sp_fee_denom p).
Definition worth (c : PoolCalc) (x : Z) : Z :=
  match c with
  | CWsol => x
  | CLido p => share x (li_sol_balance p) (li_st_sol_supply p)
  | CSpl p => share (x - spl_fee p x) (sp_total_lamports p) (sp_pool_token_supply p)
  | CMarinade p =>
      let gross := share x (marinade_total p) (ma_msol_supply p) in
      gross - down (gross * ma_fee_cents p) 1000000
  end.

(** Field ranges: the Rust types of the fields. *)
Definition calc_typed (c : PoolCalc) : Prop :=
  match c with
  | CWsol => True
  | CLido p => U64 (li_sol_balance p) /\ U64 (li_st_sol_supply p) /\ U64 (li_computed_in_epoch p)
  | CSpl p => U64 (sp_total_lamports p) /\ U64 (sp_pool_token_supply p) /\
              U64 (sp_fee_num p) /\ U64 (sp_fee_denom p) /\ U64 (sp_last_update_epoch p)
  | CMarinade p => U64 (ma_delayed_unstake_cooling_down p) /\ U64 (ma_emergency_cooling_down p) /\
                   U64 (ma_total_active_balance p) /\ U64 (ma_available_reserve_balance p) /\
                   U64 (ma_circulating_ticket_balance p) /\ U64 (ma_msol_supply p) /\
                   0 <= ma_fee_cents p <= U32_MAX
  end.
(** The pool has a rate (nonzero on both sides) and charges less than everything. *)
Definition calc_live (c : PoolCalc) : Prop :=
  match c with
  | CWsol => True
  | CLido p => 0 < li_sol_balance p /\ 0 < li_st_sol_supply p
  | CSpl p => 0 < sp_total_lamports p /\ 0 < sp_pool_token_supply p /\
              (sp_fee_num p < sp_fee_denom p \/ sp_fee_num p = 0)
  | CMarinade p => 0 < marinade_total p /\ 0 < ma_msol_supply p /\ ma_fee_cents p < 1000000
  end.

(** The amounts a calculator has an answer for: fees at most 100%, and figures that fit u64. *)
Definition answers (c : PoolCalc) (x : Z) : Prop :=
  match c with
  | CWsol => True
  | CLido p => worth c x <= U64_MAX
  | CSpl p => sp_fee_num p <= sp_fee_denom p /\ worth c x <= U64_MAX
  | CMarinade p =>
      ma_fee_cents p <= 1000000 /\ share x (marinade_total p) (ma_msol_supply p) <= U64_MAX /\
      ma_total_active_balance p + ma_delayed_unstake_cooling_down p + ma_emergency_cooling_down p
        + ma_available_reserve_balance p <= U64_MAX
  end.

(** The stake pool an account list points to. *)
Definition pool_of (cfg : CalcCfg) (pw : PWorld) (accs : list Meta) : option PoolCalc :=
  match cc_kind cfg, pdata pw (key_at accs 2) with
  | KSpl, PSpl p => Some (CSpl p)
  | KLido _ _, PLido p => Some (CLido p)
  | KMarinade _ _, PMarinade p => Some (CMarinade p)
  | _, _ => None
  end.

(** Every stake pool account on chain holds values of its fields' types. *)
Definition pools_typed (pw : PWorld) : Prop :=
  forall k, match pdata pw k with
            | PSpl p => calc_typed (CSpl p) | PLido p => calc_typed (CLido p)
            | PMarinade p => calc_typed (CMarinade p) | _ => True end.

(* ------------------------------------------------------------------ *)
(** * Histories of a generic-pool calculator *)

(** Other programs, epochs passing: anything, except that only the calculator program can touch its
    state PDA (it has no private key and is owned by the system program or the calculator). *)
Definition calc_external (cfg : CalcCfg) (pw pw' : PWorld) : Prop :=
  pw_acc pw' (cc_state cfg) = pw_acc pw (cc_state cfg).

(** One event: something else ([None]) or a successful call of the calculator. *)
Definition CalcEvent : Type := option (list Meta * CalcIx).
Inductive calc_event (R : RatioLib) (cfg : CalcCfg) (pw pw' : PWorld) : CalcEvent -> Prop :=
| ev_external : calc_external cfg pw pw' -> calc_event R cfg pw pw' None
| ev_call accs ix r : calc_process R cfg pw accs ix = Ok (pw', r) ->
    calc_event R cfg pw pw' (Some (accs, ix)).
(** Histories, oldest event first in the list read from the end. *)
Inductive calc_history (R : RatioLib) (cfg : CalcCfg) : PWorld -> PWorld -> list CalcEvent -> Prop :=
| h_nil pw : calc_history R cfg pw pw []
| h_cons pw1 pw2 pw3 e es : calc_history R cfg pw1 pw2 es -> calc_event R cfg pw2 pw3 e ->
    calc_history R cfg pw1 pw3 (e :: es).
Definition calc_reachable (R : RatioLib) (cfg : CalcCfg) (pw : PWorld) : Prop :=
  exists pw0 es, pw_acc pw0 (cc_state cfg) = no_account /\ calc_history R cfg pw0 pw es.

(** The calculator's records: its manager, and the pool program deployment slot it trusts. *)
Definition calc_manager (cfg : CalcCfg) (pw : PWorld) : option key :=
  match pdata pw (cc_state cfg) with PCalc m _ => Some m | _ => None end.
Definition trusted_slot (cfg : CalcCfg) (pw : PWorld) : option Z :=
  match pdata pw (cc_state cfg) with PCalc _ s => Some s | _ => None end.
(** Where the stake pool program's code lives, as the calculator looks it up: for the SPL family the
    address the program account names, for Lido and Marinade a constant. *)
Definition program_data (cfg : CalcCfg) (pw : PWorld) : option key :=
  match cc_kind cfg with
  | KSpl => match pdata pw (cc_pool_program cfg) with PProgram a => Some a | _ => None end
  | _ => Some (cc_progdata cfg)
  end.
(** The slot in which the stake pool program's current code was deployed. *)
Definition deployed_slot (cfg : CalcCfg) (pw : PWorld) : option Z :=
  match program_data cfg pw with
  | Some a => match pdata pw a with PProgData s => Some s | _ => None end
  | None => None
  end.
(** The stake pool's figures are current: SPL and Lido, updated in the chain's epoch; Marinade, not
    paused and stake withdrawals enabled. *)
Definition pool_current (pw : PWorld) (c : PoolCalc) : Prop :=
  match c with
  | CWsol => True
  | CSpl p => sp_last_update_epoch p = pw_epoch pw
  | CLido p => li_computed_in_epoch p = pw_epoch pw
  | CMarinade p => ma_paused p = false /\ ma_withdraw_enabled p = true
  end.

(** The loader never moves a program's code: the program account names the well-known address. *)
Definition loader_ok (cfg : CalcCfg) (pw : PWorld) : Prop :=
  forall a, pdata pw (cc_pool_program cfg) = PProgram a -> a = cc_progdata cfg.
(** The stake pool account is the genuine one: for the SPL family, any stake pool of the pool program;
    for Lido and Marinade, the one well-known address holding the program's state. *)
Definition genuine_pool (cfg : CalcCfg) (pw : PWorld) (k : key) : Prop :=
  match cc_kind cfg with
  | KSpl => powner pw k = cc_pool_program cfg /\
            exists p, pdata pw k = PSpl p /\ sp_is_stake_pool p = true
  | KLido _ s => k = s /\ exists p, pdata pw k = PLido p /\ li_is_lido p = true
  | KMarinade _ s => k = s /\ exists p, pdata pw k = PMarinade p /\ ma_discm_ok p = true
  end.
(** The LST the calculator values through that pool. *)
Definition lst_of (cfg : CalcCfg) (c : PoolCalc) : key :=
  match cc_kind cfg, c with
  | KSpl, CSpl p => sp_pool_mint p
  | KLido m _, _ => m | KMarinade m _, _ => m
  | _, _ => cc_id cfg
  end.
(** Everything a price request needs: the right accounts, in order, for a genuine, current pool whose
    program has not been replaced since the manager last looked. *)
Record quotable (cfg : CalcCfg) (pw : PWorld) (accs : list Meta) (c : PoolCalc) : Prop := {
  q_len : (5 <= length accs)%nat;
  q_pool : pool_of cfg pw accs = Some c;
  q_genuine : genuine_pool cfg pw (key_at accs 2);
  q_mint : key_at accs 0 = lst_of cfg c;
  q_state : key_at accs 1 = cc_state cfg;
  q_program : key_at accs 3 = cc_pool_program cfg;
  q_progdata : program_data cfg pw = Some (key_at accs 4);
  q_slot : exists s, trusted_slot cfg pw = Some s /\ deployed_slot cfg pw = Some s;
  q_current : pool_current pw c }.

(* ------------------------------------------------------------------ *)
(** * Histories of the flat-fee program *)

Definition flat_pda (F : FlatCfg) (k : key) : Prop :=
  k = ff_state F \/ exists m b, fd_create F m b = Some k.
(** What is assumed of the derivation: find's bump re-creates find's address; an address determines
    the mint and the bump (no collisions); the state PDA is none of them. *)
Definition flat_derive_ok (F : FlatCfg) : Prop :=
  (forall m, fd_create F m (snd (fd_find F m)) = Some (fst (fd_find F m))) /\
  (forall m b m' b' k, fd_create F m b = Some k -> fd_create F m' b' = Some k -> m = m' /\ b = b') /\
  (forall m b, fd_create F m b <> Some (ff_state F)) /\
  ff_id F <> SYSTEM_PROGRAM_ID.
(** Others cannot touch the program's PDAs. *)
Definition flat_external (F : FlatCfg) (pw pw' : PWorld) : Prop :=
  forall k, flat_pda F k -> pw_acc pw' k = pw_acc pw k.
Inductive flat_step (R : RatioLib) (F : FlatCfg) (pw pw' : PWorld) : Prop :=
| fs_external : flat_external F pw pw' -> flat_step R F pw pw'
| fs_call accs ix r : flat_process R F pw accs ix = Ok (pw', r) -> flat_step R F pw pw'.
Inductive flat_steps (R : RatioLib) (F : FlatCfg) : PWorld -> PWorld -> Prop :=
| fss_nil pw : flat_steps R F pw pw
| fss_cons pw1 pw2 pw3 : flat_steps R F pw1 pw2 -> flat_step R F pw2 pw3 -> flat_steps R F pw1 pw3.
Definition flat_reachable (R : RatioLib) (F : FlatCfg) (pw : PWorld) : Prop :=
  exists pw0, (forall k, flat_pda F k -> pw_acc pw0 k = no_account) /\ flat_steps R F pw0 pw.

(** The program's records: manager, LP withdrawal fee, and each LST's (input, output) fees in bps. *)
Definition flat_manager (F : FlatCfg) (pw : PWorld) : option key :=
  match pdata pw (ff_state F) with PFlatState m _ => Some m | _ => None end.
Definition flat_lp_fee (F : FlatCfg) (pw : PWorld) : option Z :=
  match pdata pw (ff_state F) with PFlatState _ f => Some f | _ => None end.
Definition lst_fees (F : FlatCfg) (pw : PWorld) (m : key) : option (Z * Z) :=
  match pdata pw (fst (fd_find F m)) with PFlatFee _ i o => Some (i, o) | _ => None end.
