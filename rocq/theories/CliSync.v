(** The sync and sync-all commands of the operator's command line tool
    (cli/s-controller/src/subcmd/{sync,sync_all}.rs, rpc.rs). *)
From Coq Require Import ZArith List Bool.
From Verif Require Import Base State Controller Periph Deploy Client ClientSpec Known Jup Cli.
Import ListNotations.
Open Scope Z_scope.

Section WithDeploy.
Context (dp : Deploy) (D : Derive) (E : Env).

(** A transaction of controller instructions: all or nothing. *)
Fixpoint run_from (all : list TopIx) (n : nat) (ixs : list TopIx) (w : World) : res World :=
  match ixs with
  | [] => Ok w
  | t :: rest => w1 <- run D E (mkCtx all n) w t ;; run_from all (S n) rest w1
  end.
Definition run_tx (w : World) (ixs : list TopIx) : res World := run_from ixs 0 ixs w.

(** rpc.rs:82-84: the pool state account's bytes are compared; its layout has all fields of [PoolState] and padding the
    program never writes. *)
Definition pool_eqb (a b : PoolState) : bool :=
  (total_sol_value a =? total_sol_value b) && (trading_protocol_fee_bps a =? trading_protocol_fee_bps b) &&
  (lp_protocol_fee_bps a =? lp_protocol_fee_bps b) && (version a =? version b) && (is_disabled a =? is_disabled b) &&
  (is_rebalancing a =? is_rebalancing b) && (admin a =? admin b) && (rebalance_authority a =? rebalance_authority b) &&
  (protocol_fee_beneficiary a =? protocol_fee_beneficiary b) && (pricing_program a =? pricing_program b) &&
  (lp_token_mint a =? lp_token_mint b).

(** rpc.rs:33-84 does_tx_modify_pool_state: simulate in state [w], compare with the pool state fetched earlier. A failed
    simulation, or no pool state account, ends the tool. *)
Definition does_tx_modify_pool_state (w : World) (ixs : list TopIx) (before : PoolState) : res bool :=
  w1 <- run_tx w ixs ;;
  after <- of_option Panic (w_pool w1 POOL_STATE_ID) ;;
  Ok (negb (pool_eqb after before)).

(** sync.rs:112-140, sync_all.rs:102-131: what one transaction of the tool does to the chain. Simplified: the
    simulation and the transaction see the same state; a failed transaction ends the tool. *)
Definition send_syncs (force : bool) (before : PoolState) (w : World) (ixs : list TopIx) : res World :=
  should_run <- (if force then Ok true else does_tx_modify_pool_state w ixs before) ;;
  if should_run then run_tx w ixs else Ok w.

(** What the builder sees: the fetched list, the mint's token program. *)
Definition sync_view (l : list LstState) (token_program : key) : World :=
  {| w_pool := fun _ => None; w_list := upd (fun _ => None) LST_STATE_LIST_ID (Some l); w_auth := fun _ => None;
     w_rec := fun _ => None; w_tok := fun _ => None; w_mint := fun _ => None;
     w_owner := fun _ => token_program; w_exec := fun _ => false |}.
Definition sync_ix (l : list LstState) (mint token_program : key) (accs : list Meta) : res TopIx :=
  client_sync D (sync_view l token_program) LST_STATE_LIST_ID mint accs.

(** sync.rs:49-150, with the pool state and list as fetched; [accs]: the calculator accounts, the mint first
    (sync.rs:66-79: of the known LST, or as given on the command line). *)
Definition sync_cmd (force : bool) (l : list LstState) (before : PoolState) (w : World) (mint token_program : key)
  (accs : list Meta) : res World :=
  t <- sync_ix l mint token_program accs ;; send_syncs force before w [t].

(** common.rs:109-111 *)
Definition find_sanctum_lst_by_mint (lsts : list SanctumLst) (m : key) : option SanctumLst :=
  find (fun s => sl_mint s =? m) lsts.
(** sync_all.rs:64-73 *)
Definition known_listed (lsts : list SanctumLst) (l : list LstState) : list SanctumLst :=
  flat_map (fun ls => match find_sanctum_lst_by_mint lsts (ls_mint ls) with Some s => [s] | None => [] end) l.
(** slice::chunks; [fuel]: at least the length *)
Fixpoint chunks {A} (fuel : nat) (n : nat) (l : list A) : list (list A) :=
  match fuel, l with
  | _, [] => []
  | O, _ => [l]
  | S f, _ => firstn n l :: chunks f n (skipn n l)
  end.
(** sync_all.rs:22 *)
Definition MAX_SYNCS_PER_TX : nat := 4.
(** sync_all.rs:79-101 *)
Fixpoint sync_ixs (l : list LstState) (chunk : list SanctumLst) : res (list TopIx) :=
  match chunk with
  | [] => Ok []
  | s :: rest =>
      accs <- of_option Panic (calc_accounts_of dp s) ;;
      t <- sync_ix l (sl_mint s) (sl_token_program s) accs ;;
      ts <- sync_ixs l rest ;;
      Ok (t :: ts)
  end.
(** sync_all.rs:132-134: one transaction after the other *)
Fixpoint send_chunks (force : bool) (l : list LstState) (before : PoolState) (cs : list (list SanctumLst)) (w : World)
  : res World :=
  match cs with
  | [] => Ok w
  | c :: rest =>
      ixs <- sync_ixs l c ;;
      w1 <- send_syncs force before w ixs ;;
      send_chunks force l before rest w1
  end.
(** sync_all.rs:40-136 *)
Definition sync_all_cmd (force : bool) (lsts : list SanctumLst) (l : list LstState) (before : PoolState) (w : World)
  : res World :=
  let known := known_listed lsts l in
  send_chunks force l before (chunks (length known) MAX_SYNCS_PER_TX known) w.

End WithDeploy.
