(** On-chain state: typed accounts, the world, token program and address derivation. *)
From Coq Require Import ZArith List Bool.
From Verif Require Import Base.
Import ListNotations.
Open Scope Z_scope.

(* ------------------------------------------------------------------ *)
(** * Well-known keys
    Only equality of keys matters, so they are distinct small numbers here. The real values are
    hashes / base58 constants (libs/s-controller-lib/src/lib.rs:66-86, consts.rs:1-19). *)
Definition S_CONTROLLER_ID : key := 1.   (* lib.rs:74 *)
Definition POOL_STATE_ID : key := 2.     (* lib.rs:76 *)
Definition LST_STATE_LIST_ID : key := 3. (* lib.rs:77 *)
Definition DISABLE_POOL_AUTHORITY_LIST_ID : key := 4. (* lib.rs:78-81 *)
Definition REBALANCE_RECORD_ID : key := 5. (* lib.rs:82 *)
Definition PROTOCOL_FEE_ID : key := 6.   (* lib.rs:83 *)
Definition INITIAL_AUTHORITY_ID : key := 7. (* consts.rs:3-9 *)
Definition SPL_TOKEN_ID : key := 8.
Definition SPL_TOKEN_2022_ID : key := 9.
Definition SYSTEM_PROGRAM_ID : key := 10.
Definition ATA_PROGRAM_ID : key := 11.
Definition INSTRUCTIONS_SYSVAR_ID : key := 12.
Definition DEFAULT_PRICING_PROGRAM : key := 13. (* consts.rs:19 *)

(** Program-derived addresses of the controller: no private key exists for them, so they can sign
    only inside the controller's own CPIs (Solana runtime rule). *)
Definition controller_pdas : list key :=
  [POOL_STATE_ID; LST_STATE_LIST_ID; DISABLE_POOL_AUTHORITY_LIST_ID; REBALANCE_RECORD_ID;
   PROTOCOL_FEE_ID].

(* ------------------------------------------------------------------ *)
(** * Accounts owned by the controller *)

(** generated/s_controller_interface/src/typedefs.rs:7-20 (padding left out here; the byte layout
    with padding is in Serde.v) *)
Record PoolState := mkPool {
  total_sol_value : Z;
  trading_protocol_fee_bps : Z;
  lp_protocol_fee_bps : Z;
  version : Z;
  is_disabled : Z;
  is_rebalancing : Z;
  admin : key;
  rebalance_authority : key;
  protocol_fee_beneficiary : key;
  pricing_program : key;
  lp_token_mint : key
}.

(** generated/s_controller_interface/src/typedefs.rs:24-32 *)
Record LstState := mkLst {
  is_input_disabled : Z;
  pool_reserves_bump : Z;
  protocol_fee_accumulator_bump : Z;
  sol_value : Z;
  ls_mint : key;
  sol_value_calculator : key
}.

(** generated/s_controller_interface/src/typedefs.rs:36-40 *)
Record RebalanceRecord := mkRec {
  old_total_sol_value : Z;
  dst_lst_index : Z
}.

(** libs/s-controller-lib/src/u8bool.rs:8-16 *)
Definition u8bool_is_false (b : Z) : bool := b =? 0.
Definition u8bool_is_true (b : Z) : bool := negb (u8bool_is_false b).

(* Field updates used by the processors. *)
Definition set_total (ps : PoolState) (v : Z) : PoolState :=
  mkPool v (trading_protocol_fee_bps ps) (lp_protocol_fee_bps ps) (version ps) (is_disabled ps)
    (is_rebalancing ps) (admin ps) (rebalance_authority ps) (protocol_fee_beneficiary ps)
    (pricing_program ps) (lp_token_mint ps).
Definition set_trading_fee (ps : PoolState) (v : Z) : PoolState :=
  mkPool (total_sol_value ps) v (lp_protocol_fee_bps ps) (version ps) (is_disabled ps)
    (is_rebalancing ps) (admin ps) (rebalance_authority ps) (protocol_fee_beneficiary ps)
    (pricing_program ps) (lp_token_mint ps).
Definition set_lp_fee (ps : PoolState) (v : Z) : PoolState :=
  mkPool (total_sol_value ps) (trading_protocol_fee_bps ps) v (version ps) (is_disabled ps)
    (is_rebalancing ps) (admin ps) (rebalance_authority ps) (protocol_fee_beneficiary ps)
    (pricing_program ps) (lp_token_mint ps).
Definition set_disabled (ps : PoolState) (v : Z) : PoolState :=
  mkPool (total_sol_value ps) (trading_protocol_fee_bps ps) (lp_protocol_fee_bps ps) (version ps) v
    (is_rebalancing ps) (admin ps) (rebalance_authority ps) (protocol_fee_beneficiary ps)
    (pricing_program ps) (lp_token_mint ps).
Definition set_rebalancing (ps : PoolState) (v : Z) : PoolState :=
  mkPool (total_sol_value ps) (trading_protocol_fee_bps ps) (lp_protocol_fee_bps ps) (version ps)
    (is_disabled ps) v (admin ps) (rebalance_authority ps) (protocol_fee_beneficiary ps)
    (pricing_program ps) (lp_token_mint ps).
Definition set_admin_key (ps : PoolState) (v : key) : PoolState :=
  mkPool (total_sol_value ps) (trading_protocol_fee_bps ps) (lp_protocol_fee_bps ps) (version ps)
    (is_disabled ps) (is_rebalancing ps) v (rebalance_authority ps) (protocol_fee_beneficiary ps)
    (pricing_program ps) (lp_token_mint ps).
Definition set_rebalance_auth_key (ps : PoolState) (v : key) : PoolState :=
  mkPool (total_sol_value ps) (trading_protocol_fee_bps ps) (lp_protocol_fee_bps ps) (version ps)
    (is_disabled ps) (is_rebalancing ps) (admin ps) v (protocol_fee_beneficiary ps)
    (pricing_program ps) (lp_token_mint ps).
Definition set_beneficiary_key (ps : PoolState) (v : key) : PoolState :=
  mkPool (total_sol_value ps) (trading_protocol_fee_bps ps) (lp_protocol_fee_bps ps) (version ps)
    (is_disabled ps) (is_rebalancing ps) (admin ps) (rebalance_authority ps) v
    (pricing_program ps) (lp_token_mint ps).
Definition set_pricing_key (ps : PoolState) (v : key) : PoolState :=
  mkPool (total_sol_value ps) (trading_protocol_fee_bps ps) (lp_protocol_fee_bps ps) (version ps)
    (is_disabled ps) (is_rebalancing ps) (admin ps) (rebalance_authority ps)
    (protocol_fee_beneficiary ps) v (lp_token_mint ps).
Definition set_sol_value (ls : LstState) (v : Z) : LstState :=
  mkLst (is_input_disabled ls) (pool_reserves_bump ls) (protocol_fee_accumulator_bump ls) v
    (ls_mint ls) (sol_value_calculator ls).
Definition set_input_disabled (ls : LstState) (v : Z) : LstState :=
  mkLst v (pool_reserves_bump ls) (protocol_fee_accumulator_bump ls) (sol_value ls)
    (ls_mint ls) (sol_value_calculator ls).
Definition set_calculator (ls : LstState) (v : key) : LstState :=
  mkLst (is_input_disabled ls) (pool_reserves_bump ls) (protocol_fee_accumulator_bump ls)
    (sol_value ls) (ls_mint ls) v.

(* ------------------------------------------------------------------ *)
(** * Token program accounts (SPL Token / Token-2022 without extensions).
    Simplifications: no delegates, no close authorities, no frozen accounts, no native-SOL sync,
    no Token-2022 transfer fees or hooks. *)
Record TokAcct := mkTok { ta_mint : key; ta_owner : key; ta_amount : Z }.
Record MintAcct := mkMint {
  m_supply : Z; m_decimals : Z; m_auth : option key; m_freeze : option key }.

(* ------------------------------------------------------------------ *)
(** * The world: what each account key holds, by how it parses.
    [w_pool k = Some ps] iff the data of account [k] parses as a PoolState, and so on; accounts at
    arbitrary keys (including attacker-made ones) are covered. An account that does not exist has
    empty data, which parses as the empty list and as nothing else. [w_owner] is the owning program
    of the account and [w_exec] its executable flag. Lamports are not modelled. *)
Record World := mkWorld {
  w_pool : key -> option PoolState;
  w_list : key -> option (list LstState);
  w_auth : key -> option (list key);
  w_rec  : key -> option RebalanceRecord;
  w_tok  : key -> option TokAcct;
  w_mint : key -> option MintAcct;
  w_owner : key -> key;
  w_exec : key -> bool
}.

Definition put_pool (w : World) (k : key) (v : option PoolState) : World :=
  mkWorld (upd (w_pool w) k v) (w_list w) (w_auth w) (w_rec w) (w_tok w) (w_mint w) (w_owner w) (w_exec w).
Definition put_list (w : World) (k : key) (v : option (list LstState)) : World :=
  mkWorld (w_pool w) (upd (w_list w) k v) (w_auth w) (w_rec w) (w_tok w) (w_mint w) (w_owner w) (w_exec w).
Definition put_auth (w : World) (k : key) (v : option (list key)) : World :=
  mkWorld (w_pool w) (w_list w) (upd (w_auth w) k v) (w_rec w) (w_tok w) (w_mint w) (w_owner w) (w_exec w).
Definition put_rec (w : World) (k : key) (v : option RebalanceRecord) : World :=
  mkWorld (w_pool w) (w_list w) (w_auth w) (upd (w_rec w) k v) (w_tok w) (w_mint w) (w_owner w) (w_exec w).
Definition put_tok (w : World) (k : key) (v : option TokAcct) : World :=
  mkWorld (w_pool w) (w_list w) (w_auth w) (w_rec w) (upd (w_tok w) k v) (w_mint w) (w_owner w) (w_exec w).
Definition put_mint (w : World) (k : key) (v : option MintAcct) : World :=
  mkWorld (w_pool w) (w_list w) (w_auth w) (w_rec w) (w_tok w) (upd (w_mint w) k v) (w_owner w) (w_exec w).
Definition put_owner (w : World) (k : key) (v : key) : World :=
  mkWorld (w_pool w) (w_list w) (w_auth w) (w_rec w) (w_tok w) (w_mint w) (upd (w_owner w) k v) (w_exec w).

(** libs/s-controller-lib/src/accounts_serde.rs:6-8, 18-20, 29-34, 43-48 *)
Definition try_pool_state (w : World) (k : key) : res PoolState :=
  of_option (Ctl InvalidPoolStateData) (w_pool w k).
Definition try_lst_state_list (w : World) (k : key) : res (list LstState) :=
  of_option (Ctl InvalidLstStateListData) (w_list w k).
Definition try_disable_pool_authority_list (w : World) (k : key) : res (list key) :=
  of_option (Ctl InvalidDisablePoolAuthorityListData) (w_auth w k).
Definition try_rebalance_record (w : World) (k : key) : res RebalanceRecord :=
  of_option (Ctl InvalidRebalanceRecordData) (w_rec w k).

(* ------------------------------------------------------------------ *)
(** * Account metas *)
Record Meta := mkMeta { mk : key; is_signer : bool; is_writable : bool }.

(* ------------------------------------------------------------------ *)
(** * Token program operations (external; SPL Token processor semantics) *)

(** sanctum_token_lib::token_account_balance / token_account_mint / mint_supply *)
Definition token_account_balance (w : World) (k : key) : res Z :=
  t <- of_option InvalidData (w_tok w k) ;; Ok (ta_amount t).
Definition token_account_mint (w : World) (k : key) : res key :=
  t <- of_option InvalidData (w_tok w k) ;; Ok (ta_mint t).
Definition mint_supply (w : World) (k : key) : res Z :=
  m <- of_option InvalidData (w_mint w k) ;; Ok (m_supply m).

Definition is_token_program (p : key) : bool := (p =? SPL_TOKEN_ID) || (p =? SPL_TOKEN_2022_ID).

(** SPL Token TransferChecked. [auth_signs] is whether the authority signs the CPI: the top-level
    signer flag, or true when the controller signs with the PDA's seeds. *)
Definition transfer_checked (w : World) (prog from to mint auth : key) (auth_signs : bool)
  (amount : Z) : res World :=
  guard (is_token_program prog) TokenErr (
  f <- of_option TokenErr (w_tok w from) ;;
  t <- of_option TokenErr (w_tok w to) ;;
  m <- of_option TokenErr (w_mint w mint) ;;
  guard ((w_owner w from =? prog) && (w_owner w to =? prog) && (w_owner w mint =? prog)) TokenErr (
  guard ((ta_mint f =? mint) && (ta_mint t =? mint)) TokenErr (
  guard ((ta_owner f =? auth) && auth_signs) TokenErr (
  guard (amount <=? ta_amount f) TokenErr (
  if from =? to then Ok w
  else
    guard (ta_amount t + amount <=? U64_MAX) TokenErr (
    let w1 := put_tok w from (Some (mkTok (ta_mint f) (ta_owner f) (ta_amount f - amount))) in
    Ok (put_tok w1 to (Some (mkTok (ta_mint t) (ta_owner t) (ta_amount t + amount))))
    )))))).

(** SPL Token MintTo *)
Definition mint_to (w : World) (prog mint to auth : key) (auth_signs : bool) (amount : Z)
  : res World :=
  guard (is_token_program prog) TokenErr (
  m <- of_option TokenErr (w_mint w mint) ;;
  t <- of_option TokenErr (w_tok w to) ;;
  guard ((w_owner w to =? prog) && (w_owner w mint =? prog)) TokenErr (
  guard (ta_mint t =? mint) TokenErr (
  guard (match m_auth m with Some a => a =? auth | None => false end && auth_signs) TokenErr (
  guard ((ta_amount t + amount <=? U64_MAX) && (m_supply m + amount <=? U64_MAX)) TokenErr (
  let w1 := put_tok w to (Some (mkTok (ta_mint t) (ta_owner t) (ta_amount t + amount))) in
  Ok (put_mint w1 mint (Some (mkMint (m_supply m + amount) (m_decimals m) (m_auth m) (m_freeze m))))
  ))))).

(** SPL Token Burn *)
Definition burn (w : World) (prog mint from auth : key) (auth_signs : bool) (amount : Z)
  : res World :=
  guard (is_token_program prog) TokenErr (
  m <- of_option TokenErr (w_mint w mint) ;;
  f <- of_option TokenErr (w_tok w from) ;;
  guard ((w_owner w from =? prog) && (w_owner w mint =? prog)) TokenErr (
  guard (ta_mint f =? mint) TokenErr (
  guard ((ta_owner f =? auth) && auth_signs) TokenErr (
  guard ((amount <=? ta_amount f) && (amount <=? m_supply m)) TokenErr (
  let w1 := put_tok w from (Some (mkTok (ta_mint f) (ta_owner f) (ta_amount f - amount))) in
  Ok (put_mint w1 mint (Some (mkMint (m_supply m - amount) (m_decimals m) (m_auth m) (m_freeze m))))
  ))))).

(** SPL Token CloseAccount (authority = owner; nonzero balance refused) *)
Definition close_token_account (w : World) (prog acc auth : key) (auth_signs : bool) : res World :=
  guard (is_token_program prog) TokenErr (
  t <- of_option TokenErr (w_tok w acc) ;;
  guard (w_owner w acc =? prog) TokenErr (
  guard ((ta_owner t =? auth) && auth_signs) TokenErr (
  guard (ta_amount t =? 0) TokenErr (
  Ok (put_owner (put_tok w acc None) acc SYSTEM_PROGRAM_ID))))).

(** SPL Token SetAuthority on a mint: kind MintTokens / FreezeAccount *)
Definition set_mint_authority (w : World) (prog mint cur : key) (cur_signs : bool) (new : key)
  : res World :=
  guard (is_token_program prog) TokenErr (
  m <- of_option TokenErr (w_mint w mint) ;;
  guard (w_owner w mint =? prog) TokenErr (
  guard (match m_auth m with Some a => a =? cur | None => false end && cur_signs) TokenErr (
  Ok (put_mint w mint (Some (mkMint (m_supply m) (m_decimals m) (Some new) (m_freeze m))))))).
Definition set_freeze_authority (w : World) (prog mint cur : key) (cur_signs : bool) (new : key)
  : res World :=
  guard (is_token_program prog) TokenErr (
  m <- of_option TokenErr (w_mint w mint) ;;
  guard (w_owner w mint =? prog) TokenErr (
  guard (match m_freeze m with Some a => a =? cur | None => false end && cur_signs) TokenErr (
  Ok (put_mint w mint (Some (mkMint (m_supply m) (m_decimals m) (m_auth m) (Some new))))))).

(** The associated-token-account program's Create: makes an empty token account for (wallet, mint)
    owned by the mint's token program; fails if the account exists or the mint is not a mint of that
    program. Rent paid by [payer] is not modelled. *)
Definition create_ata_account (w : World) (ata wallet mint prog : key) : res World :=
  guard (is_token_program prog) SystemErr (
  match w_tok w ata, w_mint w mint with
  | None, Some _ =>
      guard (w_owner w mint =? prog) SystemErr (
      Ok (put_owner (put_tok w ata (Some (mkTok mint wallet 0))) ata prog))
  | _, _ => Err SystemErr
  end).

(* ------------------------------------------------------------------ *)
(** * Associated token address derivation (external: hashing).
    [d_create wallet prog mint bump] = Pubkey::create_program_address, [d_find] =
    find_program_address. *)
Record Derive := {
  d_create : key -> key -> key -> Z -> option key;  (* wallet token_program mint bump *)
  d_find : key -> key -> key -> key * Z
}.

(** What is assumed of derivation: find's bump re-creates find's address; a created address
    determines wallet, token program and mint (no hash collisions) and is none of the controller's
    well-known keys; bumps are bytes. *)
Definition derive_ok (D : Derive) : Prop :=
  (forall w p m, d_create D w p m (snd (d_find D w p m)) = Some (fst (d_find D w p m))) /\
  (forall w p m b w' p' m' b' k,
     d_create D w p m b = Some k -> d_create D w' p' m' b' = Some k -> w = w' /\ p = p' /\ m = m') /\
  (forall w p m b k, d_create D w p m b = Some k -> ~ (1 <= k <= 13)) /\
  (forall w p m, 0 <= snd (d_find D w p m) <= U8_MAX).
