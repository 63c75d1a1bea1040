(** * Builders.v — client-side instruction builders (instruction.rs:271-466). *)
From Verif Require Import Base Codec State Pda TokenProg Cpi.

(** solana_instruction::Instruction for token-wrap: program, account metas, data bytes. *)
Record tw_instruction := mkTwIx { tx_prog : pubkey; tx_metas : list info; tx_data : list N }.

(** instruction.rs:271-288 *)
Definition build_create_mint (prog w b u wtp : pubkey) (idempotent : bool) : tw_instruction :=
  mkTwIx prog [meta_w w false; meta_w b false; meta_r u false; meta_r system_id false; meta_r wtp false]
         (pack (CreateMint idempotent)).
(** instruction.rs:292-326 *)
Definition build_wrap (prog r w a utp wtp s u esc ta : pubkey) (signers : list pubkey) (amount : N) : tw_instruction :=
  mkTwIx prog
    ([meta_w r false; meta_w w false; meta_r a false; meta_r utp false; meta_r wtp false; meta_w s false;
      meta_r u false; meta_w esc false; meta_r ta (is_nil signers)] ++ map (fun k => meta_r k true) signers)
    (pack (Wrap amount)).
(** instruction.rs:330-364 *)
Definition build_unwrap (prog esc r a u wtp utp s w ta : pubkey) (signers : list pubkey) (amount : N) : tw_instruction :=
  mkTwIx prog
    ([meta_w esc false; meta_w r false; meta_r a false; meta_r u false; meta_r wtp false; meta_r utp false;
      meta_w s false; meta_w w false; meta_r ta (is_nil signers)] ++ map (fun k => meta_r k true) signers)
    (pack (Unwrap amount)).
(** instruction.rs:367-385 *)
Definition build_close_stuck_escrow (prog esc d u w a : pubkey) : tw_instruction :=
  mkTwIx prog [meta_w esc false; meta_w d false; meta_r u false; meta_r w false; meta_r a false; meta_r t22_id false]
         (pack CloseStuckEscrow).
Definition opt_meta (o : option pubkey) : list info :=
  match o with Some k => [meta_r k false] | None => [] end.
(** instruction.rs:388-413 *)
Definition build_sync_to_token_2022 (prog w a u : pubkey) (src owner_prog : option pubkey) : tw_instruction :=
  mkTwIx prog ([meta_w w false; meta_r a false; meta_r u false; meta_r t22_id false] ++ opt_meta src ++ opt_meta owner_prog)
         (pack SyncMetadataToToken2022).
(** instruction.rs:416-445 *)
Definition build_sync_to_spl_token (prog md a w u : pubkey) (src owner_prog : option pubkey) : tw_instruction :=
  mkTwIx prog ([meta_w md false; meta_w a false; meta_r w false; meta_r u false; meta_r mpl_id false;
                meta_r system_id false; meta_r rent_sysvar_id false] ++ opt_meta src ++ opt_meta owner_prog)
         (pack SyncMetadataToSplToken).
(** instruction.rs:448-466; the program id travels as 32 bytes. *)
Definition build_set_canonical_pointer (prog ma ptr u : pubkey) (canonical : list N) : tw_instruction :=
  mkTwIx prog [meta_r ma true; meta_w ptr false; meta_r u false; meta_r system_id false]
         (pack (SetCanonicalPointer canonical)).
