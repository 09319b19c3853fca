(** Specification of the managers' commands (C54): when each goes through, and what the records are afterwards. *)
From Coq Require Import ZArith List Bool.
From Verif Require Import Base State Controller Periph PeriphSpec PeriphCli.
Import ListNotations.
Open Scope Z_scope.

Definition signed_bps (x : Z) : Prop := -10000 <= x <= 10000.

(** The flat-fee program's records become these, and nothing that is not the program's changes. *)
Definition flat_becomes (F : FlatCfg) (pw pw' : PWorld) (mgr lp_fee : option Z) (fees : key -> option (Z * Z)) : Prop :=
  flat_manager F pw' = mgr /\ flat_lp_fee F pw' = lp_fee /\ (forall m, lst_fees F pw' m = fees m) /\
  (forall k, ~ flat_pda F k -> pw_acc pw' k = pw_acc pw k) /\ pw_epoch pw' = pw_epoch pw.
Definition is_mint (pw : PWorld) (m : key) : Prop :=
  (powner pw m = SPL_TOKEN_ID \/ powner pw m = SPL_TOKEN_2022_ID) /\ pdata pw m = PMint.

(** [flat_cmd_rule F pw mgr c lp' ...]: with the manager's key [mgr], in [pw], the command [c] goes through and the records
    become (manager, LP withdrawal fee, each mint's fees). *)
Inductive flat_cmd_rule (F : FlatCfg) (pw : PWorld) (mgr : key) :
  FlatCmd -> option key -> option Z -> (key -> option (Z * Z)) -> Prop :=
| fc_init : flat_manager F pw = None ->
    flat_cmd_rule F pw mgr FInit (Some (ff_manager0 F)) (Some 5) (lst_fees F pw)
| fc_manager new : flat_manager F pw = Some mgr ->
    flat_cmd_rule F pw mgr (FSetManager new) (Some new) (flat_lp_fee F pw) (lst_fees F pw)
| fc_lp_fee bps : flat_manager F pw = Some mgr -> 0 <= bps <= 10000 ->
    flat_cmd_rule F pw mgr (FSetLpFee bps) (Some mgr) (Some bps) (lst_fees F pw)
| fc_add m i o : flat_manager F pw = Some mgr -> lst_fees F pw m = None -> is_mint pw m -> signed_bps i -> signed_bps o ->
    flat_cmd_rule F pw mgr (FAddLst m i o) (Some mgr) (flat_lp_fee F pw) (upd (lst_fees F pw) m (Some (i, o)))
| fc_remove m refund : flat_manager F pw = Some mgr ->
    flat_cmd_rule F pw mgr (FRemoveLst m refund) (Some mgr) (flat_lp_fee F pw) (upd (lst_fees F pw) m None)
| fc_fee m i o : flat_manager F pw = Some mgr -> lst_fees F pw m <> None -> signed_bps i -> signed_bps o ->
    flat_cmd_rule F pw mgr (FSetLstFee m i o) (Some mgr) (flat_lp_fee F pw) (upd (lst_fees F pw) m (Some (i, o))).

(** The accounts an RPC node lists as the program's: each of them, once. *)
Definition program_accounts (F : FlatCfg) (pw : PWorld) (listed : list key) : Prop :=
  NoDup listed /\ forall k, In k listed <-> powner pw k = ff_id F.
(** Accounts somebody else made the program the owner of (the system program lets anybody do that with a new account
    whose key they hold). *)
Definition stray (F : FlatCfg) (pw : PWorld) (k : key) : Prop := powner pw k = ff_id F /\ ~ flat_pda F k.
Definition no_strays (F : FlatCfg) (pw : PWorld) : Prop := forall k, powner pw k = ff_id F -> flat_pda F k.

(** A calculator's records become these, and nothing else changes. *)
Definition calc_becomes (cfg : CalcCfg) (pw pw' : PWorld) (mgr slot : option Z) : Prop :=
  calc_manager cfg pw' = mgr /\ trusted_slot cfg pw' = slot /\
  (forall k, k <> cc_state cfg -> pw_acc pw' k = pw_acc pw k) /\ pw_epoch pw' = pw_epoch pw.
Inductive calc_cmd_rule (cfg : CalcCfg) (loader_pda : key -> key) (pw : PWorld) (mgr : key) :
  CalcCmd -> option key -> option Z -> Prop :=
| cc_does_init : calc_manager cfg pw = None -> calc_cmd_rule cfg loader_pda pw mgr CCInit (Some (cc_manager0 cfg)) (Some 0)
| cc_does_manager new : calc_manager cfg pw = Some mgr ->
    calc_cmd_rule cfg loader_pda pw mgr (CCSetManager new) (Some new) (trusted_slot cfg pw)
(** the slot in which the code now deployed was deployed *)
| cc_does_slot slot : calc_manager cfg pw = Some mgr ->
    pdata pw (cc_pool_program cfg) = PProgram (loader_pda (cc_pool_program cfg)) ->
    pdata pw (loader_pda (cc_pool_program cfg)) = PProgData slot ->
    calc_cmd_rule cfg loader_pda pw mgr (CCUpdateSlot (cc_pool_program cfg)) (Some mgr) (Some slot).
