(** Byte-level model: instruction data, account layouts, list accounts edited in place.
    A byte is a [Z] in 0..255; account / instruction data is a list of bytes. *)
From Coq Require Import ZArith List Bool.
From Verif Require Import Base State Controller.
Import ListNotations.
Open Scope Z_scope.

Definition bytes := list Z.
Definition are_bytes (b : bytes) : bool := forallb u8b b.

(** Little-endian encoding of an unsigned integer in [n] bytes (borsh integers; in-memory integers
    of the BPF target; a Pubkey is the 32-byte integer of its bytes). *)
Fixpoint le_bytes (n : nat) (x : Z) : bytes :=
  match n with O => [] | S n' => x mod 256 :: le_bytes n' (x / 256) end.
Fixpoint le_val (b : bytes) : Z :=
  match b with [] => 0 | x :: t => x + 256 * le_val t end.

(* ------------------------------------------------------------------ *)
(** * Instruction data: generated/s_controller_interface/src/instructions.rs *)

(** std::io::Read::read_exact of [n] bytes followed by from_le_bytes: fails when fewer remain. *)
Definition read (n : nat) (b : bytes) : option (Z * bytes) :=
  if Nat.ltb (length b) n then None else Some (le_val (firstn n b), skipn n b).
(** borsh Option<u16>: tag byte 0 or 1, anything else is an error. *)
Definition read_opt16 (b : bytes) : option (option Z * bytes) :=
  match read 1 b with
  | Some (t, b') =>
      if t =? 0 then Some (None, b')
      else if t =? 1 then
        match read 2 b' with Some (v, b'') => Some (Some v, b'') | None => None end
      else None
  | None => None
  end.
Definition enc_opt16 (o : option Z) : bytes :=
  match o with None => [0] | Some v => 1 :: le_bytes 2 v end.

Notation "'let?' p := m 'in' k" := (match m with Some p => k | None => None end)
  (at level 200, p pattern, m at level 200, k at level 200, right associativity).

(** The *_IX_DISCM constants: instructions.rs:281 (0), 601 (1), 958 (2), 1306 (3), 1645 (4),
    1893 (5), 2120 (6), 2449 (7), 2745 (8), 2999 (9), 3212 (10), 3387 (11), 3604 (12), 3799 (13),
    4042 (14), 4314 (15), 4545 (16), 4768 (17), 4946 (18), 5253 (19), 5529 (20), 5727 (21),
    5962 (22) *)
Definition discm (ix : Ix) : Z :=
  match ix with
  | SyncSolValue _ => 0 | SwapExactIn _ => 1 | SwapExactOut _ => 2 | AddLiquidity _ => 3
  | RemoveLiquidity _ => 4 | DisableLstInput _ => 5 | EnableLstInput _ => 6 | AddLst => 7
  | RemoveLst _ => 8 | SetSolValueCalculator _ => 9 | SetAdmin => 10 | SetProtocolFee _ _ => 11
  | SetProtocolFeeBeneficiary => 12 | SetPricingProgram => 13 | WithdrawProtocolFees _ => 14
  | AddDisablePoolAuthority => 15 | RemoveDisablePoolAuthority _ => 16 | DisablePool => 17
  | EnablePool => 18 | StartRebalance _ => 19 | EndRebalance => 20 | SetRebalanceAuthority => 21
  | Initialize => 22
  end.

(** borsh serialisation of the argument structs (fields in declaration order):
    instructions.rs:284, 604, 961, 1309, 1648, 1896, 2123, 2748, 3002, 3390, 4045, 4548, 5256 *)
Definition enc_args (ix : Ix) : bytes :=
  match ix with
  | SyncSolValue i | DisableLstInput i | EnableLstInput i | RemoveLst i
  | SetSolValueCalculator i | RemoveDisablePoolAuthority i => le_bytes 4 i
  | SwapExactIn a =>
      le_bytes 1 (si_src_lst_value_calc_accs a) ++ le_bytes 1 (si_dst_lst_value_calc_accs a) ++
      le_bytes 4 (si_src_lst_index a) ++ le_bytes 4 (si_dst_lst_index a) ++
      le_bytes 8 (si_min_amount_out a) ++ le_bytes 8 (si_amount a)
  | SwapExactOut a =>
      le_bytes 1 (so_src_lst_value_calc_accs a) ++ le_bytes 1 (so_dst_lst_value_calc_accs a) ++
      le_bytes 4 (so_src_lst_index a) ++ le_bytes 4 (so_dst_lst_index a) ++
      le_bytes 8 (so_max_amount_in a) ++ le_bytes 8 (so_amount a)
  | AddLiquidity a =>
      le_bytes 1 (al_lst_value_calc_accs a) ++ le_bytes 4 (al_lst_index a) ++
      le_bytes 8 (al_lst_amount a) ++ le_bytes 8 (al_min_lp_out a)
  | RemoveLiquidity a =>
      le_bytes 1 (rl_lst_value_calc_accs a) ++ le_bytes 4 (rl_lst_index a) ++
      le_bytes 8 (rl_lp_token_amount a) ++ le_bytes 8 (rl_min_lst_out a)
  | SetProtocolFee t l => enc_opt16 t ++ enc_opt16 l
  | WithdrawProtocolFees a => le_bytes 8 a
  | StartRebalance a =>
      le_bytes 1 (sr_src_lst_calc_accs a) ++ le_bytes 4 (sr_src_lst_index a) ++
      le_bytes 4 (sr_dst_lst_index a) ++ le_bytes 8 (sr_amount a) ++
      le_bytes 8 (sr_min_starting_src_lst a) ++ le_bytes 8 (sr_max_starting_dst_lst a)
  | AddLst | SetAdmin | SetProtocolFeeBeneficiary | SetPricingProgram | AddDisablePoolAuthority
  | DisablePool | EnablePool | EndRebalance | SetRebalanceAuthority | Initialize => []
  end.

(** SControllerProgramIx::serialize / try_to_vec — instructions.rs:105-180 *)
Definition enc_ix (ix : Ix) : bytes := discm ix :: enc_args ix.

Definition dec_index (mkix : Z -> Ix) (b : bytes) : option Ix :=
  let? (i, _) := read 4 b in Some (mkix i).

(** SControllerProgramIx::deserialize — instructions.rs:37-104. Bytes after the arguments are
    ignored. *)
Definition dec_ix (b : bytes) : option Ix :=
  let? (d, b) := read 1 b in
  if d =? 0 then dec_index SyncSolValue b
  else if d =? 1 then
    let? (n, b) := read 1 b in let? (m, b) := read 1 b in let? (i, b) := read 4 b in
    let? (j, b) := read 4 b in let? (x, b) := read 8 b in let? (y, b) := read 8 b in
    Some (SwapExactIn (mkSwapIn n m i j x y))
  else if d =? 2 then
    let? (n, b) := read 1 b in let? (m, b) := read 1 b in let? (i, b) := read 4 b in
    let? (j, b) := read 4 b in let? (x, b) := read 8 b in let? (y, b) := read 8 b in
    Some (SwapExactOut (mkSwapOut n m i j x y))
  else if d =? 3 then
    let? (n, b) := read 1 b in let? (i, b) := read 4 b in
    let? (x, b) := read 8 b in let? (y, b) := read 8 b in
    Some (AddLiquidity (mkAddLiq n i x y))
  else if d =? 4 then
    let? (n, b) := read 1 b in let? (i, b) := read 4 b in
    let? (x, b) := read 8 b in let? (y, b) := read 8 b in
    Some (RemoveLiquidity (mkRemLiq n i x y))
  else if d =? 5 then dec_index DisableLstInput b
  else if d =? 6 then dec_index EnableLstInput b
  else if d =? 7 then Some AddLst
  else if d =? 8 then dec_index RemoveLst b
  else if d =? 9 then dec_index SetSolValueCalculator b
  else if d =? 10 then Some SetAdmin
  else if d =? 11 then
    let? (t, b) := read_opt16 b in let? (l, b) := read_opt16 b in Some (SetProtocolFee t l)
  else if d =? 12 then Some SetProtocolFeeBeneficiary
  else if d =? 13 then Some SetPricingProgram
  else if d =? 14 then let? (x, _) := read 8 b in Some (WithdrawProtocolFees x)
  else if d =? 15 then Some AddDisablePoolAuthority
  else if d =? 16 then dec_index RemoveDisablePoolAuthority b
  else if d =? 17 then Some DisablePool
  else if d =? 18 then Some EnablePool
  else if d =? 19 then
    let? (n, b) := read 1 b in let? (i, b) := read 4 b in let? (j, b) := read 4 b in
    let? (x, b) := read 8 b in let? (y, b) := read 8 b in let? (z, b) := read 8 b in
    Some (StartRebalance (mkStartReb n i j x y z))
  else if d =? 20 then Some EndRebalance
  else if d =? 21 then Some SetRebalanceAuthority
  else if d =? 22 then Some Initialize
  else None.

(** process_instruction — programs/s-controller/src/entrypoint.rs:14-65 *)
Definition process_instruction (D : Derive) (E : Env) (C : Ctx) (program_id : key) (w : World)
  (accs : list Meta) (data : bytes) : res World :=
  guard (program_id =? S_CONTROLLER_ID) IncorrectProgramId (
  ix <- of_option InvalidData (dec_ix data) ;;
  process D E C w accs ix).

(* ------------------------------------------------------------------ *)
(** * Account layouts: bytemuck Pod structs, #[repr(C)]
    A layout is the list of field widths; padding fields are fields like the others. *)

Fixpoint enc_fields (ws : list nat) (vs : list Z) : bytes :=
  match ws, vs with
  | w :: ws', v :: vs' => le_bytes w v ++ enc_fields ws' vs'
  | _, _ => []
  end.
Fixpoint dec_fields (ws : list nat) (b : bytes) : list Z :=
  match ws with
  | [] => []
  | w :: ws' => le_val (firstn w b) :: dec_fields ws' (skipn w b)
  end.
Fixpoint width (ws : list nat) : nat := match ws with [] => O | w :: t => (w + width t)%nat end.

(** generated/s_controller_interface/src/typedefs.rs:7-20; [padding: [u8; 1]] is the eighth field *)
Definition pool_layout : list nat := [8; 2; 2; 1; 1; 1; 1; 32; 32; 32; 32; 32]%nat.
Definition pool_fields (ps : PoolState) (pad : Z) : list Z :=
  [total_sol_value ps; trading_protocol_fee_bps ps; lp_protocol_fee_bps ps; version ps;
   is_disabled ps; is_rebalancing ps; pad; admin ps; rebalance_authority ps;
   protocol_fee_beneficiary ps; pricing_program ps; lp_token_mint ps].
Definition enc_pool (ps : PoolState) (pad : Z) : bytes := enc_fields pool_layout (pool_fields ps pad).
(** bytemuck::try_from_bytes: the length must be exactly the struct's size
    (accounts_serde.rs:6-15). Alignment: account data is 8-aligned by the runtime. *)
Definition dec_pool (b : bytes) : option (PoolState * Z) :=
  if Nat.eqb (length b) (width pool_layout) then
    match dec_fields pool_layout b with
    | [t; tf; lf; v; d; r; pad; a; ra; pfb; pp; lp] => Some (mkPool t tf lf v d r a ra pfb pp lp, pad)
    | _ => None
    end
  else None.

(** typedefs.rs:21-32; [padding: [u8; 5]] is the fourth field *)
Definition lst_layout : list nat := [1; 1; 1; 5; 8; 32; 32]%nat.
Definition lst_fields (ls : LstState) (pad : Z) : list Z :=
  [is_input_disabled ls; pool_reserves_bump ls; protocol_fee_accumulator_bump ls; pad;
   sol_value ls; ls_mint ls; sol_value_calculator ls].
Definition enc_lst (x : LstState * Z) : bytes := enc_fields lst_layout (lst_fields (fst x) (snd x)).
Definition dec_lst (b : bytes) : LstState * Z :=
  match dec_fields lst_layout b with
  | [d; pr; pf; pad; v; m; c] => (mkLst d pr pf v m c, pad)
  | _ => (mkLst 0 0 0 0 0 0, 0)
  end.

(** typedefs.rs:33-40; [padding: [u8; 4]] is the second field *)
Definition rec_layout : list nat := [8; 4; 4]%nat.
Definition rec_fields (r : RebalanceRecord) (pad : Z) : list Z :=
  [old_total_sol_value r; pad; dst_lst_index r].
Definition enc_rec (r : RebalanceRecord) (pad : Z) : bytes := enc_fields rec_layout (rec_fields r pad).
(** accounts_serde.rs:43-55 *)
Definition dec_rec (b : bytes) : option (RebalanceRecord * Z) :=
  if Nat.eqb (length b) (width rec_layout) then
    match dec_fields rec_layout b with
    | [t; pad; i] => Some (mkRec t i, pad)
    | _ => None
    end
  else None.

(** A Pubkey list element *)
Definition enc_key (k : key) : bytes := le_bytes 32 k.
Definition dec_key (b : bytes) : key := le_val b.

Definition LST_SIZE : nat := 80.
Definition KEY_SIZE : nat := 32.

(* ------------------------------------------------------------------ *)
(** * List accounts *)

(** [len / size] consecutive elements of [size] bytes *)
Fixpoint chunks (n size : nat) (b : bytes) : list bytes :=
  match n with O => [] | S n' => firstn size b :: chunks n' size (skipn size b) end.

(** try_list / try_list_mut — accounts_serde.rs:57-93 (alignment always holds, see above) *)
Definition try_list {A} (size : nat) (dec : bytes -> A) (b : bytes) : option (list A) :=
  if Nat.eqb (Nat.modulo (length b) size) 0
  then Some (map dec (chunks (Nat.div (length b) size) size b)) else None.

(** The bytes of a list of elements. *)
Definition enc_list {A} (enc : A -> bytes) (l : list A) : bytes := concat (map enc l).

(** Writing [new] over the bytes at [off..off+len new]. *)
Definition splice (off : nat) (new b : bytes) : bytes :=
  firstn off b ++ new ++ skipn (off + length new) b.

(** ResizableAccount::extend_by (external crate): realloc, new bytes zeroed.
    list_account.rs:22-51 without rent. *)
Definition extend_list_pda (size : nat) (b : bytes) : bytes := b ++ repeat 0 size.

(** add_lst.rs:53-76, add_disable_pool_authority.rs:24-42: grow, reinterpret as a list, overwrite
    the last element. *)
Definition append_elem (size : nat) (e : ctl_err) (elem b : bytes) : res bytes :=
  let b' := extend_list_pda size b in
  guard (Nat.eqb (Nat.modulo (length b') size) 0) (Ctl e) (
  guard (negb (Nat.eqb (Nat.div (length b') size) 0)) (Ctl e) (
  Ok (splice (length b' - size) elem b'))).

(** sol_memmove(dst, src, n): as if through a temporary copy. Bytes outside the data would be
    undefined behaviour; [None] then. *)
Definition memmove (dst src n : nat) (b : bytes) : option bytes :=
  if Nat.leb (src + n) (length b) && Nat.leb (dst + n) (length b)
  then Some (splice dst (firstn n (skipn src b)) b) else None.

(** remove_from_list_pda — list_account.rs:64-112 without rent. [index], [size] are usize (64 bit);
    when the data becomes empty the account is closed (no data). *)
Definition remove_elem (size : nat) (index : Z) (b : bytes) : res bytes :=
  let size' := Z.of_nat size in
  guard (index * size' <=? U64_MAX) (Ctl MathError) (
  guard (index * size' + size' <=? U64_MAX) (Ctl MathError) (
  guard (index * size' + size' <=? Z.of_nat (length b)) (Ctl MathError) (
  let dst := Z.to_nat (index * size') in
  let src := (dst + size)%nat in
  match memmove dst src (length b - src) b with
  | None => Err Panic
  | Some b' => Ok (firstn (length b' - size) b')
  end))).
