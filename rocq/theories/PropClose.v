(** * PropClose.v — C22, C23 (and C08 for this instruction): closing stuck escrows.

    Account order: [escrow; destination; unwrapped mint; wrapped mint; authority; Token-2022]. *)
From Verif Require Import Base Codec State Pda TokenProg Cpi Meta Processor Builders PdaProofs Spec Demo Demo2 CloseProofs.

(** C22: when CloseStuckEscrow succeeds, and what it does. *)
Theorem C22_close : forall e accounts l l' esc d u w a p,
  keys_are accounts [esc; d; u; w; a; p] -> succeeds e accounts CloseStuckEscrow l l' ->
  (w = wrapped_mint_of e u (a_owner (l w)) /\ a = authority_of e w /\ esc = escrow_of e u t22_id (a_owner (l w))) /\
  (esc <> d /\ writable accounts esc /\ writable accounts d) /\
  (exists mu te, mint_account l u t22_id mu /\ token_account l esc t22_id te /\ t_owner te = a /\ t_amount te = 0 /\ t_state te = Initialized /\
     (distinct_mint_exts mu -> distinct_acct_exts te -> ~ healthy mu te)) /\
  l' esc = mkAcc 0 (DRaw []) system_id /\
  l' d = mkAcc (lamports l d + lamports l esc) (a_data (l d)) (a_owner (l d)) /\
  forall k, k <> esc -> k <> d -> l' k = l k.
Proof. exact close_exact_l. Qed.
Print Assumptions C22_close.

(** C23: a healthy escrow is refused ... *)
Theorem C23_healthy_refused : forall e accounts l esc d u w a p mu te,
  keys_are accounts [esc; d; u; w; a; p] -> close_addresses_exist e u (a_owner (l w)) ->
  w = wrapped_mint_of e u (a_owner (l w)) -> a = authority_of e w -> esc = escrow_of e u t22_id (a_owner (l w)) ->
  mint_account l u t22_id mu -> token_account l esc t22_id te -> t_owner te = a -> t_amount te = 0 -> t_state te = Initialized ->
  distinct_mint_exts mu -> distinct_acct_exts te -> healthy mu te ->
  fails e accounts CloseStuckEscrow l (ETw EscrowInGoodState).
Proof. exact close_healthy_l. Qed.
Print Assumptions C23_healthy_refused.

(** ... an empty mismatched one can be closed by anybody (no signature is needed).  Remaining conditions: the destination is neither the escrow nor the mint; no separate close authority, no withheld fees, no confidential balance, no CPI guard (only the escrow's owner, token-wrap, could set these, and it never does); the authority is not a multisig account. *)
Theorem C23_stuck_closable : forall e accounts l esc d u w a more mu te,
  map i_key accounts = [esc; d; u; w; a; t22_id] ++ more -> close_addresses_exist e u (a_owner (l w)) ->
  w = wrapped_mint_of e u (a_owner (l w)) -> a = authority_of e w -> esc = escrow_of e u t22_id (a_owner (l w)) ->
  mint_account l u t22_id mu -> token_account l esc t22_id te -> t_owner te = a -> t_amount te = 0 -> t_state te = Initialized ->
  distinct_mint_exts mu -> distinct_acct_exts te -> ~ healthy mu te ->
  writable accounts esc -> writable accounts d -> d <> esc -> d <> u ->
  t_close te = None -> withheld te = 0 -> confidential_of (t_exts te) = 0 -> cpi_guard_locked te = false ->
  (forall m, a_data (l a) <> DMultisig m) ->
  exists l', succeeds e accounts CloseStuckEscrow l l'.
Proof. exact close_stuck_l. Qed.
Print Assumptions C23_stuck_closable.

(** An account initialised the way the associated-token program does it is healthy for the current mint. *)
Theorem C23_fresh_is_healthy : forall e ms k mnt owner l l',
  tok_init_account e t22_id ms k mnt owner true l = Ok l' ->
  exists m t, mint_account l mnt t22_id m /\ a_data (l' k) = DTok t /\ t_mint t = mnt /\ t_owner t = owner /\ healthy m t.
Proof. exact init_account_healthy. Qed.
Print Assumptions C23_fresh_is_healthy.

(** ** The hypotheses are met: the mint has a fee extension its escrow lacks ... *)
Definition demo_stuck : ledger := after [x_create] (d_x [MxTransferFee d_fees] [] 0).
Definition x_close := build_close_stuck_escrow tw_id (d_esc t22_id spl_token_id) d_alice d_u (d_w spl_token_id) (d_a spl_token_id).
Example C22_nonvacuous : exists l',
  keys_are (tx_metas x_close) [d_esc t22_id spl_token_id; d_alice; d_u; d_w spl_token_id; d_a spl_token_id; t22_id] /\
  succeeds demo_env (tx_metas x_close) CloseStuckEscrow demo_stuck l' /\
  lamports demo_stuck (d_esc t22_id spl_token_id) = 5000 /\ lamports l' d_alice = 10000.
Proof. eexists. split; [exists []; vm_compute; reflexivity|]. split; vm_compute; auto. Qed.
(** ... and a healthy one. *)
Example C23_nonvacuous : let l := after [x_create] demo_fee in exists mu te,
  mint_account l d_u t22_id mu /\ token_account l (d_esc t22_id spl_token_id) t22_id te /\ t_amount te = 0 /\ t_state te = Initialized /\
  distinct_mint_exts mu /\ distinct_acct_exts te /\ healthy mu te /\
  fails demo_env (tx_metas x_close) CloseStuckEscrow l (ETw EscrowInGoodState).
Proof.
  eexists. eexists. split; [repeat split; vm_compute; reflexivity|]. split; [repeat split; try (vm_compute; reflexivity); discriminate|].
  split; [reflexivity|]. split; [reflexivity|].
  assert (D1 : distinct_mint_exts (d_x_mint [MxTransferFee d_fees])) by (repeat constructor; intros []).
  assert (D2 : distinct_acct_exts (d_x_tok d_u (d_a spl_token_id) 0 [AxImmutableOwner; AxTransferFeeAmount 0])).
  { repeat constructor; cbn; intuition discriminate. }
  split; [exact D1|]. split; [exact D2|]. split; [|vm_compute; reflexivity].
  apply good_state_healthy; [exact D1|exact D2|vm_compute; reflexivity].
Qed.
