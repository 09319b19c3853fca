(** What instruction data may carry, and what stored accounts hold, by their Rust types. *)
From Coq Require Import ZArith List Bool.
From Verif Require Import Base State Controller Periph PeriphSpec.
Open Scope Z_scope.

Definition calc_ix_wfb (ix : CalcIx) : bool :=
  match ix with LstToSol x | SolToLst x => u64b x | _ => true end.
Definition flat_ix_wfb (ix : FlatIx) : bool :=
  match ix with
  | PriceExactIn x y | PriceExactOut x y | PriceLpTokensToMint x y | PriceLpTokensToRedeem x y =>
      u64b x && u64b y
  | SetLpWithdrawalFee x => u16b x
  | SetLstFee x y | FlatAddLst x y => i16b x && i16b y
  | FlatRemoveLst | FlatSetManager | FlatInitialize => true
  end.

(** Stored integers fit their types: pool accounts as in [pools_typed], fees u16 / i16. *)
Definition accounts_typed (pw : PWorld) : Prop :=
  pools_typed pw /\
  forall k, match pdata pw k with
            | PFlatState _ f => u16b f = true
            | PFlatFee _ i o => i16b i = true /\ i16b o = true
            | _ => True
            end.
