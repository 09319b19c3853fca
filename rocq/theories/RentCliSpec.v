(** What commands cost and refund (C55). *)
From Coq Require Import ZArith List Bool.
From Verif Require Import Base State Controller Spec AdminSpec CliAdmin Periph PeriphSpec PeriphCli Rent RentSpec.
Import ListNotations.
Open Scope Z_scope.

Definition listed_now (w : World) : Z := match the_list w with Some l => Z.of_nat (length l) | None => 0 end.
Definition authorities_now (w : World) : Z := match the_authorities w with Some l => Z.of_nat (length l) | None => 0 end.

(** The operator's commands: whatever is created is at the payer's expense; what is freed goes to the account named for
    it, or back to the payer. *)
Definition cmd_flows (Rs : Rents) (D : Derive) (w : World) (lam : Lam) (payer auth : key) (c : Cmd) : list Flow :=
  match c with
  | CInit _ => [mkFlow payer POOL_STATE_ID (short Rs lam POOL_STATE_ID 176)]
  | CAddLst m _ =>
      let creation k := match w_tok w k with None => short Rs lam k (token_size Rs (w_owner w m) m) | Some _ => 0 end in
      [mkFlow payer (reserves_key D w m) (creation (reserves_key D w m));
       mkFlow payer (accumulator_key D w m) (creation (accumulator_key D w m));
       mkFlow payer LST_STATE_LIST_ID (short Rs lam LST_STATE_LIST_ID (80 * (listed_now w + 1)))]
  | CRemoveLst refund m =>
      let to := match refund with Some k => k | None => payer end in
      [mkFlow (accumulator_key D w m) to (lam (accumulator_key D w m)); mkFlow (reserves_key D w m) to (lam (reserves_key D w m));
       mkFlow LST_STATE_LIST_ID to
         (lam LST_STATE_LIST_ID - (if listed_now w =? 1 then 0 else rent_for Rs (80 * (listed_now w - 1))))]
  | CAddDisableAuth _ =>
      [mkFlow payer DISABLE_POOL_AUTHORITY_LIST_ID (short Rs lam DISABLE_POOL_AUTHORITY_LIST_ID (32 * (authorities_now w + 1)))]
  | CRemoveDisableAuth refund _ =>
      [mkFlow DISABLE_POOL_AUTHORITY_LIST_ID (match refund with Some k => k | None => payer end)
         (lam DISABLE_POOL_AUTHORITY_LIST_ID - (if authorities_now w =? 1 then 0 else rent_for Rs (32 * (authorities_now w - 1))))]
  | CWithdrawFees m tp withdraw_to _ =>
      let to := match withdraw_to with Some k => k | None => fst (d_find D auth tp m) end in
      match w_tok w to, w_mint w to with
      | None, None => [mkFlow payer to (short Rs lam to (token_size Rs tp m))]
      | _, _ => []
      end
  | _ => []
  end.

(** The managers' commands: the program's state takes 34 bytes, a mint's fees 6, a calculator's state 40. *)
Definition flat_flows (Rs : Rents) (F : FlatCfg) (lam : Lam) (payer : key) (c : FlatCmd) : list Flow :=
  match c with
  | FInit => [mkFlow payer (ff_state F) (short Rs lam (ff_state F) 34)]
  | FAddLst m _ _ => [mkFlow payer (fst (fd_find F m)) (short Rs lam (fst (fd_find F m)) 6)]
  | FRemoveLst m refund => [mkFlow (fst (fd_find F m)) refund (lam (fst (fd_find F m)))]
  | _ => []
  end.
Definition calc_flows (Rs : Rents) (cfg : CalcCfg) (lam : Lam) (payer : key) (c : CalcCmd) : list Flow :=
  match c with CCInit => [mkFlow payer (cc_state cfg) (short Rs lam (cc_state cfg) 40)] | _ => [] end.
