(** Specification of the administrative commands (C53): for each, with which keys and in which states it goes through, and
    exactly what it changes. Account lists, list positions and instruction encodings do not occur here. *)
From Coq Require Import ZArith List Bool.
From Verif Require Import Base State Controller Spec AdminSpec CliAdmin.
Import ListNotations.
Open Scope Z_scope.

(** Arguments of the types the command line parser accepts. *)
Definition cmd_typed (c : Cmd) : Prop :=
  match c with
  | CSetProtocolFee t l => (forall x, t = Some x -> 0 <= x <= 65535) /\ (forall x, l = Some x -> 0 <= x <= 65535)
  | CWithdrawFees _ _ _ a => forall x, a = Some x -> 0 <= x <= U64_MAX
  | _ => True
  end.

(** A position an instruction can name. *)
Definition reachable_position (n : nat) : Prop := Z.of_nat n <= U32_MAX.

(** [cmd_rule D E w payer auth c ch]: in [w] the command [c], with the payer's and the authority's keys, goes through and
    changes [ch]. *)
Inductive cmd_rule (D : Derive) (E : Env) (w : World) (payer auth : key) : Cmd -> Change -> Prop :=

| does_init lp m :
    auth = INITIAL_AUTHORITY_ID ->
    the_pool w = None -> w_owner w lp = SPL_TOKEN_ID -> w_mint w lp = Some m -> m_supply m = 0 ->
    m_decimals m = 9 -> m_auth m = Some auth -> m_freeze m = Some auth ->
    cmd_rule D E w payer auth (CInit lp)
      (mkChange (Some (mkPool 0 1000 1000 1 0 0 auth auth auth DEFAULT_PRICING_PROGRAM lp))
         None None [] [(lp, Some (mkMint 0 9 (Some POOL_STATE_ID) (Some POOL_STATE_ID)))] [])

| does_set_admin ps new :
    the_pool w = Some ps -> auth = admin ps ->
    cmd_rule D E w payer auth (CSetAdmin new)
      (pool_becomes (mkPool (total_sol_value ps) (trading_protocol_fee_bps ps) (lp_protocol_fee_bps ps)
         (version ps) (is_disabled ps) (is_rebalancing ps) new (rebalance_authority ps)
         (protocol_fee_beneficiary ps) (pricing_program ps) (lp_token_mint ps)))

| does_set_fee ps t l :
    the_pool w = Some ps -> auth = admin ps -> running ps ->
    (forall x, t = Some x -> x <= 10000) -> (forall x, l = Some x -> x <= 10000) ->
    cmd_rule D E w payer auth (CSetProtocolFee t l)
      (pool_becomes (mkPool (total_sol_value ps)
         (match t with Some x => x | None => trading_protocol_fee_bps ps end)
         (match l with Some x => x | None => lp_protocol_fee_bps ps end)
         (version ps) (is_disabled ps) (is_rebalancing ps) (admin ps) (rebalance_authority ps)
         (protocol_fee_beneficiary ps) (pricing_program ps) (lp_token_mint ps)))

| does_set_beneficiary ps new :
    the_pool w = Some ps -> auth = protocol_fee_beneficiary ps -> running ps ->
    cmd_rule D E w payer auth (CSetBeneficiary new)
      (pool_becomes (mkPool (total_sol_value ps) (trading_protocol_fee_bps ps) (lp_protocol_fee_bps ps)
         (version ps) (is_disabled ps) (is_rebalancing ps) (admin ps) (rebalance_authority ps)
         new (pricing_program ps) (lp_token_mint ps)))

| does_set_pricing ps new :
    the_pool w = Some ps -> auth = admin ps -> running ps -> w_exec w new = true ->
    cmd_rule D E w payer auth (CSetPricing new)
      (pool_becomes (mkPool (total_sol_value ps) (trading_protocol_fee_bps ps) (lp_protocol_fee_bps ps)
         (version ps) (is_disabled ps) (is_rebalancing ps) (admin ps) (rebalance_authority ps)
         (protocol_fee_beneficiary ps) new (lp_token_mint ps)))

| does_set_rebalance_authority ps new :
    the_pool w = Some ps -> auth = admin ps \/ auth = rebalance_authority ps -> running ps ->
    cmd_rule D E w payer auth (CSetRebalanceAuth new)
      (pool_becomes (mkPool (total_sol_value ps) (trading_protocol_fee_bps ps) (lp_protocol_fee_bps ps)
         (version ps) (is_disabled ps) (is_rebalancing ps) (admin ps) new
         (protocol_fee_beneficiary ps) (pricing_program ps) (lp_token_mint ps)))

| does_add_authority ps new au :
    the_pool w = Some ps -> auth = admin ps -> the_authorities w = Some au -> ~ In new au ->
    cmd_rule D E w payer auth (CAddDisableAuth new) (authorities_become (au ++ [new]))

(** The admin removes anybody, an authority itself. *)
| does_remove_authority ps refund it before after :
    the_pool w = Some ps -> the_authorities w = Some (before ++ it :: after) -> ~ In it before ->
    reachable_position (length before) -> auth = admin ps \/ auth = it ->
    cmd_rule D E w payer auth (CRemoveDisableAuth refund it) (authorities_become (before ++ after))

| does_disable ps au :
    the_pool w = Some ps -> running ps -> the_authorities w = Some au -> auth = admin ps \/ In auth au ->
    cmd_rule D E w payer auth CDisablePool
      (pool_becomes (mkPool (total_sol_value ps) (trading_protocol_fee_bps ps) (lp_protocol_fee_bps ps)
         (version ps) 1 (is_rebalancing ps) (admin ps) (rebalance_authority ps)
         (protocol_fee_beneficiary ps) (pricing_program ps) (lp_token_mint ps)))

| does_enable ps :
    the_pool w = Some ps -> auth = admin ps -> is_disabled ps <> 0 ->
    cmd_rule D E w payer auth CEnablePool
      (pool_becomes (mkPool (total_sol_value ps) (trading_protocol_fee_bps ps) (lp_protocol_fee_bps ps)
         (version ps) 0 (is_rebalancing ps) (admin ps) (rebalance_authority ps)
         (protocol_fee_beneficiary ps) (pricing_program ps) (lp_token_mint ps)))

| does_disable_input ps before ls after :
    the_pool w = Some ps -> auth = admin ps -> running ps -> the_list w = Some (before ++ ls :: after) ->
    reachable_position (length before) ->
    cmd_rule D E w payer auth (CDisableInput (ls_mint ls))
      (list_becomes (before ++ mkLst 1 (pool_reserves_bump ls) (protocol_fee_accumulator_bump ls)
         (sol_value ls) (ls_mint ls) (sol_value_calculator ls) :: after))
| does_enable_input ps before ls after :
    the_pool w = Some ps -> auth = admin ps -> running ps -> the_list w = Some (before ++ ls :: after) ->
    reachable_position (length before) ->
    cmd_rule D E w payer auth (CEnableInput (ls_mint ls))
      (list_becomes (before ++ mkLst 0 (pool_reserves_bump ls) (protocol_fee_accumulator_bump ls)
         (sol_value ls) (ls_mint ls) (sol_value_calculator ls) :: after))

| does_add_lst ps l m calc mi :
    the_pool w = Some ps -> auth = admin ps -> running ps -> the_list w = Some l -> ~ In m (map ls_mint l) ->
    w_owner w m = SPL_TOKEN_ID \/ w_owner w m = SPL_TOKEN_2022_ID -> w_mint w m = Some mi -> w_exec w calc = true ->
    cmd_rule D E w payer auth (CAddLst m calc)
      (mkChange None
         (Some (l ++ [mkLst 0 (snd (d_find D POOL_STATE_ID (w_owner w m) m))
                        (snd (d_find D PROTOCOL_FEE_ID (w_owner w m) m)) 0 m calc]))
         None
         (created w (reserves_key D w m) m POOL_STATE_ID ++ created w (accumulator_key D w m) m PROTOCOL_FEE_ID)
         []
         (created_owner w (reserves_key D w m) (w_owner w m) ++
          created_owner w (accumulator_key D w m) (w_owner w m)))

| does_remove_lst ps before ls after refund :
    the_pool w = Some ps -> auth = admin ps -> running ps -> the_list w = Some (before ++ ls :: after) ->
    reachable_position (length before) -> sol_value ls = 0 ->
    balance w (reserves_key D w (ls_mint ls)) = 0 -> balance w (accumulator_key D w (ls_mint ls)) = 0 ->
    cmd_rule D E w payer auth (CRemoveLst refund (ls_mint ls))
      (mkChange None (Some (before ++ after)) None
         [(reserves_key D w (ls_mint ls), None); (accumulator_key D w (ls_mint ls), None)] []
         [(reserves_key D w (ls_mint ls), SYSTEM_PROGRAM_ID);
          (accumulator_key D w (ls_mint ls), SYSTEM_PROGRAM_ID)])

(** The new calculator is asked with the accounts given on the command line, all read-only. *)
| does_set_calculator ps before ls after calc suffix v hi :
    the_pool w = Some ps -> auth = admin ps -> running ps -> the_list w = Some (before ++ ls :: after) ->
    reachable_position (length before) -> w_exec w calc = true -> (length suffix <= 254)%nat ->
    e_lst_to_sol E
      (put_list w LST_STATE_LIST_ID (Some (before ++ mkLst (is_input_disabled ls) (pool_reserves_bump ls)
         (protocol_fee_accumulator_bump ls) (sol_value ls) (ls_mint ls) calc :: after)))
      calc (ls_mint ls) (map (fun k => mkMeta k false false) suffix) (balance w (reserves_key D w (ls_mint ls))) = Ok (v, hi) ->
    0 <= v <= U64_MAX -> 0 <= hi <= U64_MAX -> total_sol_value ps - sol_value ls + v <= U64_MAX ->
    cmd_rule D E w payer auth (CSetCalculator (ls_mint ls) calc suffix)
      (mkChange
         (Some (mkPool (total_sol_value ps - sol_value ls + v) (trading_protocol_fee_bps ps)
            (lp_protocol_fee_bps ps) (version ps) (is_disabled ps) (is_rebalancing ps) (admin ps)
            (rebalance_authority ps) (protocol_fee_beneficiary ps) (pricing_program ps) (lp_token_mint ps)))
         (Some (before ++ mkLst (is_input_disabled ls) (pool_reserves_bump ls)
            (protocol_fee_accumulator_bump ls) v (ls_mint ls) calc :: after))
         None [] [] [])

(** The beneficiary moves the amount, or else all there is, of a mint's protocol fees to an existing token account of
    that mint, by default its own associated account; *)
| does_withdraw ps m to_arg to t f tf mi amount a :
    the_pool w = Some ps -> auth = protocol_fee_beneficiary ps -> running ps ->
    to = match to_arg with Some k => k | None => fst (d_find D auth (w_owner w m) m) end ->
    w_tok w to = Some t -> ta_mint t = m -> w_owner w to = w_owner w m ->
    w_owner w m = SPL_TOKEN_ID \/ w_owner w m = SPL_TOKEN_2022_ID -> w_mint w m = Some mi ->
    f = accumulator_key D w m -> w_tok w f = Some tf ->
    a = match amount with Some x => x | None => ta_amount tf end -> a <= ta_amount tf ->
    (f = to \/ ta_amount t + a <= U64_MAX) ->
    cmd_rule D E w payer auth (CWithdrawFees m (w_owner w m) to_arg amount)
      (mkChange None None None
         (if f =? to then []
          else [(f, Some (mkTok m PROTOCOL_FEE_ID (ta_amount tf - a))); (to, Some (mkTok m (ta_owner t) (ta_amount t + a)))])
         [] [])
(** or to its own associated account, which is created if it does not exist. *)
| does_withdraw_new ps m to_arg to f tf mi amount a :
    the_pool w = Some ps -> auth = protocol_fee_beneficiary ps -> running ps ->
    to = fst (d_find D auth (w_owner w m) m) -> to_arg = None \/ to_arg = Some to ->
    w_tok w to = None -> w_mint w to = None ->
    w_owner w m = SPL_TOKEN_ID \/ w_owner w m = SPL_TOKEN_2022_ID -> w_mint w m = Some mi ->
    f = accumulator_key D w m -> w_tok w f = Some tf ->
    a = match amount with Some x => x | None => ta_amount tf end -> a <= ta_amount tf ->
    cmd_rule D E w payer auth (CWithdrawFees m (w_owner w m) to_arg amount)
      (mkChange None None None
         [(f, Some (mkTok m PROTOCOL_FEE_ID (ta_amount tf - a))); (to, Some (mkTok m auth a))] [] [(to, w_owner w m)]).
