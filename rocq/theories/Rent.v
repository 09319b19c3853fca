(** Lamports: what each instruction of the controller does to the SOL held by accounts (rent deposits and refunds).
    The ledger is kept beside the [World]: an instruction goes through when both its effect on the accounts' contents
    ([process]) and its lamport movements do; nothing in [process] reads a lamport balance.
    Lamports that back the balances of wrapped-SOL token accounts count as tokens, not here. *)
From Coq Require Import ZArith List Bool.
From Verif Require Import Base Ratio Calc State Controller.
Import ListNotations.
Open Scope Z_scope.

Definition Lam := key -> Z.
(** The Rent sysvar's minimum_balance, by data size; the size a token program gives to accounts of a mint (165, more
    under Token-2022). *)
Record Rents := mkRents { rent_for : Z -> Z; token_size : key -> key -> Z }.

(** libs/s-controller-lib/src/lib.rs:34-40; solana Pubkey *)
Definition POOL_STATE_SIZE : Z := 176.
Definition LST_STATE_SIZE : Z := 80.
Definition PUBKEY_SIZE : Z := 32.

(** The system program's transfer, and sanctum_system_program_lib::transfer_direct_increment (external). *)
Definition move (lam : Lam) (from to : key) (x : Z) : res Lam :=
  guard (x <=? lam from) SystemErr (let l1 := upd lam from (lam from - x) in Ok (upd l1 to (l1 to + x))).
(** sanctum_system_program_lib::close_account (external; programs/s-controller/src/list_account.rs:95-99,
    processor/end_rebalance.rs:52-55) and the token program's CloseAccount: everything goes to [to]. Closing an account
    into itself is refused (by the token program; by the runtime, which sees lamports vanish). *)
Definition close_into (lam : Lam) (k to : key) : res Lam :=
  guard (negb (k =? to)) SystemErr (move lam k to (lam k)).

Section WithRents.
Context (Rs : Rents).

(** Bringing account [k] to the minimum for [size] bytes, at [payer]'s expense: sanctum_system_program_lib's
    init_rent_exempt_account_invoke_signed, the associated token account program's creation (both external), and
    list_account.rs:35-48. The system program moves lamports only out of its own accounts (of this, that a token account
    cannot pay is modelled); the created accounts are at derived addresses, which cannot sign, so none is [payer]. *)
Definition pay_rent (w : World) (lam : Lam) (payer k : key) (size : Z) : res Lam :=
  guard (negb (payer =? k)) SystemErr (
  if rent_for Rs size <=? lam k then Ok lam
  else match w_tok w payer with
       | Some _ => Err SystemErr
       | None => move lam payer k (rent_for Rs size - lam k)
       end).
(** processor/add_lst.rs:80-86 *)
Definition create_ata_rent (w : World) (lam : Lam) (payer ata : key) (prog mint : key) : res Lam :=
  match w_tok w ata with
  | Some _ => Ok lam
  | None => pay_rent w lam payer ata (token_size Rs prog mint)
  end.
(** list_account.rs:22-51; [n]: elements before *)
Definition extend_rent (w : World) (lam : Lam) (list_pda payer : key) (n : nat) (elem : Z) : res Lam :=
  pay_rent w lam payer list_pda (elem * (Z.of_nat n + 1)).
(** list_account.rs:64-113 (the part on lamports, :93-110) *)
Definition shrink_rent (lam : Lam) (list_pda refund : key) (n : nat) (elem : Z) : res Lam :=
  if Z.of_nat n - 1 =? 0 then close_into lam list_pda refund
  else
    let excess := sat_sub (lam list_pda) (rent_for Rs (elem * (Z.of_nat n - 1))) in
    if 0 <? excess then move lam list_pda refund excess else Ok lam.

Definition list_len {A} (o : option (list A)) : nat := match o with Some l => length l | None => 0 end.

(** The lamport movements of each instruction, in order. *)
Definition lam_step (w : World) (lam : Lam) (accs : list Meta) (ix : Ix) : res Lam :=
  match ix, accs with
  | Initialize, payer :: _ :: pool_state :: _ => (* processor/initialize.rs:27-40 *)
      pay_rent w lam (mk payer) (mk pool_state) POOL_STATE_SIZE
  | AddLst, _ :: payer :: mint :: reserves :: accumulator :: _ :: _ :: _ :: list_acc :: _ :: _ :: prog :: _ =>
      (* processor/add_lst.rs:33-61 *)
      l1 <- create_ata_rent w lam (mk payer) (mk reserves) (mk prog) (mk mint) ;;
      l2 <- (if mk accumulator =? mk reserves then Ok l1
             else create_ata_rent w l1 (mk payer) (mk accumulator) (mk prog) (mk mint)) ;;
      extend_rent w l2 (mk list_acc) (mk payer) (list_len (w_list w (mk list_acc))) LST_STATE_SIZE
  | RemoveLst _, _ :: refund :: _ :: reserves :: accumulator :: _ :: _ :: list_acc :: _ => (* processor/remove_lst.rs:27-55 *)
      l1 <- close_into lam (mk accumulator) (mk refund) ;;
      l2 <- close_into l1 (mk reserves) (mk refund) ;;
      shrink_rent l2 (mk list_acc) (mk refund) (list_len (w_list w (mk list_acc))) LST_STATE_SIZE
  | AddDisablePoolAuthority, payer :: _ :: _ :: _ :: list_acc :: _ => (* processor/add_disable_pool_authority.rs:21-34 *)
      extend_rent w lam (mk list_acc) (mk payer) (list_len (w_auth w (mk list_acc))) PUBKEY_SIZE
  | RemoveDisablePoolAuthority _, refund :: _ :: _ :: _ :: list_acc :: _ => (* processor/remove_disable_pool_authority.rs:26-33 *)
      shrink_rent lam (mk list_acc) (mk refund) (list_len (w_auth w (mk list_acc))) PUBKEY_SIZE
  | StartRebalance _, _ :: pool_state :: _ :: record :: _ => (* processor/start_rebalance.rs:102-108 *)
      move lam (mk pool_state) (mk record) 1
  | EndRebalance, _ :: pool_state :: _ :: record :: _ => (* processor/end_rebalance.rs:52-55 *)
      close_into lam (mk record) (mk pool_state)
  | _, _ => Ok lam
  end.

(** An instruction, with its lamports. *)
Definition processL (D : Derive) (E : Env) (C : Ctx) (s : World * Lam) (accs : list Meta) (ix : Ix) : res (World * Lam) :=
  w' <- process D E C (fst s) accs ix ;; lam' <- lam_step (fst s) (snd s) accs ix ;; Ok (w', lam').
End WithRents.
