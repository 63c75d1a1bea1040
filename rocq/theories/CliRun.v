(** * CliRun.v — model: running a command of the client: where signatures come from, block hashes, `--sign-only`,
    `--dry-run`, and what the run reports.  Cli.v builds the transactions; here they are signed, simulated, printed or sent.

    Simplified: output formats (display, json, quiet) are not modelled, only what they say; the RPC node is reachable and
    honest; the message is represented by its contents ([message], Js.v), its encoding to bytes is external. *)
From Verif Require Import Base Codec State Pda TokenProg Cpi Ata Meta Processor Builders Cli Js.

(** config.rs:15-20, cli.rs: the fee payer — a key pair, or only an address ([allow_null_signer], config.rs:40-50) — and
    `--dry-run`. *)
Record config := mkConfig { cf_payer : signer; cf_dry_run : bool }.
(** What the RPC node knows besides the ledger: the latest block hash, and which hashes are still accepted. *)
Record network := mkNetwork { nt_latest : N; nt_recent : N -> bool }.

(** The signing options shared by wrap.rs:57-101 and unwrap.rs: `--transfer-authority`, `--multisig-signer`, `--blockhash`,
    `--signer PUBKEY=SIGNATURE`, `--sign-only`. *)
Record signing := mkSigning {
  so_authority : option signer; so_multisig : list signer; so_blockhash : option N;
  so_signatures : list (pubkey * signature); so_sign_only : bool }.

(** cli.rs:94-117: the command line. *)
Inductive command_line :=
| LineCreateMint (u wtp : pubkey) (idempotent : bool)
| LineCreateEscrow (u wtp : pubkey) (idempotent : bool)
| LineWrap (source wtp : pubkey) (amount : N) (mint recipient utp : option pubkey) (o : signing)
| LineUnwrap (source recipient : pubkey) (amount : N) (mint wtp utp : option pubkey) (o : signing)
| LineCloseStuckEscrow (u destination wtp : pubkey)
| LineSyncToToken2022 (u : pubkey) (source program : option pubkey)
| LineSyncToSplToken (u : pubkey) (source program : option pubkey)
| LineFindPdas (u wtp : pubkey).

(** What a run ends with: an error (or a panic), nothing to do, addresses (find-pdas), the signatures and the message they
    sign (`--sign-only`), "Simulation succeeded" (`--dry-run`), or a confirmed transaction. *)
Inductive report :=
| Rejected (err : error)
| NothingToDo
| Addresses (w a b esc : pubkey)
| Signed (m : message) (ss : list (pubkey * signature))
| Simulated
| Confirmed.

(** ** Signing *)
(** A source of one signature: a key pair or an address alone ([Keypair], [NullSigner]), or a signature made elsewhere ([Presigner]). *)
Inductive source := SrcSigner (s : signer) | SrcSignature (k : pubkey) (g : signature).
Definition src_key (s : source) : pubkey := match s with SrcSigner x => sg_key x | SrcSignature k _ => k end.
(** Signer::try_sign_message: a NullSigner gives the empty signature; a Presigner whose signature does not verify fails, and
    [partial_sign] panics. *)
Definition src_sign (m : message) (s : source) : res (option signature) :=
  match s with
  | SrcSigner x => Ok (if sg_signs x then Some (SigOf (sg_key x) m) else None)
  | SrcSignature k g => guard (genuine m (k, g)) EPanic ;; Ok (Some g)
  end.
(** Transaction::partial_sign (external): a slot per key the message asks for; every source must have one (else panic); the
    results are written in order, so that the last source of a key counts. *)
Definition put_signature (k : pubkey) (g : option signature) (sigs : list (pubkey * option signature)) : list (pubkey * option signature) :=
  map (fun p => if pk_eqb (fst p) k then (fst p, g) else p) sigs.
Fixpoint sign_slots (m : message) (ss : list source) (sigs : list (pubkey * option signature)) : res (list (pubkey * option signature)) :=
  match ss with
  | [] => Ok sigs
  | s :: r => g <- src_sign m s ;; sign_slots m r (put_signature (src_key s) g sigs)
  end.
Definition sign_message (e : env) (m : message) (ss : list source) : res (list (pubkey * option signature)) :=
  guard (forallb (fun s => pk_mem (src_key s) (slots e m)) ss) EPanic ;;
  sign_slots m ss (map (fun k => (k, None)) (slots e m)).
(** Which signatures verify: [return_signers_data] prints these as `PUBKEY=SIGNATURE` (wrap.rs:313-320, unwrap.rs:271-278), and
    these are the ones that count for the network. *)
Definition verified (m : message) (sigs : list (pubkey * option signature)) : list (pubkey * signature) :=
  flat_map (fun p => match snd p with Some g => if genuine m (fst p, g) then [(fst p, g)] else [] | None => [] end) sigs.
(** wrap.rs:286-304, unwrap.rs:244-262: the sources in order: payer; the authority, if it is somebody else and no multisig;
    members; signatures given. *)
Definition sources (payer authority : signer) (multisig : list signer) (given : list (pubkey * signature)) : list source :=
  map SrcSigner (tx_signers payer authority multisig []) ++ map (fun p => SrcSignature (fst p) (snd p)) given.

(** ** Sending *)
(** common.rs:49-79.  With `--dry-run` the node's verdict ([value.err] of the answer) is not looked at.  Otherwise the node
    refuses a block hash that is too old or unknown, then [send].  Simplified: the preflight simulation of the node, which
    may refuse a failing transaction before a fee is charged, is left out. *)
Definition process_transaction (e : env) (fee : N) (net : network) (dry_run : bool) (hash : N) (t : transaction) (l : ledger) : ledger * report :=
  if dry_run then (l, Simulated)
  else if negb (nt_recent net hash) then (l, Rejected EInvalidArgument)
  else let (l', r) := send e fee t l in (l', match r with Ok _ => Confirmed | Err err => Rejected err end).

(** ** wrap and unwrap *)
(** wrap.rs:182-278: the instruction. *)
Definition wrap_instruction (e : env) (payer source wtp : pubkey) (amount : N) (mint recipient utp : option pubkey) (owner : pubkey) (members : list pubkey)
    (l : ledger) : res tw_instruction :=
  _ <- parse_token_program wtp ;;
  _ <- parse_opt utp ;;
  u <- match mint with Some m => Ok m | None => get_mint_for_token_account l source end ;;               (* 182-186 *)
  w <- get_wrapped_mint_address e u wtp ;;                                                        (* 199-200 *)
  a <- get_wrapped_mint_authority e w ;;                                                          (* 201 *)
  r <- match recipient with Some k => Ok k | None => get_associated_token_address e payer w wtp end ;;   (* 203-210 *)
  p <- match utp with Some p => Ok p | None => get_account_owner l source end ;;                         (* 253-257 *)
  esc <- get_escrow_address e u p wtp ;;                                                          (* 259-263 *)
  Ok (build_wrap tw_id r w a p wtp source u esc owner members amount).                            (* 265-278 *)
(** unwrap.rs:306-409 (resolve_addresses) and 219-232: the instruction. *)
Definition unwrap_instruction (e : env) (source recipient : pubkey) (amount : N) (mint wtp utp : option pubkey) (owner : pubkey) (members : list pubkey)
    (l : ledger) : res tw_instruction :=
  _ <- parse_opt wtp ;; _ <- parse_opt utp ;;
  q1 <- get_account_owner l source ;; wp <- agreed wtp q1 ;;                                      (* 314-329 *)
  q2 <- get_mint_for_token_account l recipient ;; u <- agreed mint q2 ;;                          (* 331-346 *)
  q3 <- get_account_owner l u ;; p <- agreed utp q3 ;;                                            (* 348-363 *)
  w <- get_wrapped_mint_address e u wp ;;
  a <- get_wrapped_mint_authority e w ;;
  esc <- get_escrow_address e u p wp ;;
  Ok (build_unwrap tw_id esc recipient a u wp p source w owner members amount).

(** wrap.rs:217-231: the authority named, else the payer. *)
Definition authority_or (payer : signer) (o : option signer) : signer := match o with Some s => s | None => payer end.
(** wrap.rs:78-97: `--multisig-signer` and `--signer` require `--blockhash` (clap). *)
Definition hash_given (o : signing) : bool := match so_blockhash o with Some _ => true | None => is_nil (so_multisig o) && is_nil (so_signatures o) end.
(** wrap.rs:280-284: the hash given, else the latest. *)
Definition hash_for (net : network) (o : signing) : N := match so_blockhash o with Some h => h | None => nt_latest net end.
(** wrap.rs:280-334, unwrap.rs:234-293. *)
Definition sign_and_process (e : env) (fee : N) (net : network) (cfg : config) (o : signing) (ix : res tw_instruction) (l : ledger) : ledger * report :=
  if negb (hash_given o) then (l, Rejected EInvalidArgument) else
  match ix with
  | Err err => (l, Rejected err)
  | Ok i =>
    let m := compile e (sg_key (cf_payer cfg)) i (hash_for net o) in
    match sign_message e m (sources (cf_payer cfg) (authority_or (cf_payer cfg) (so_authority o)) (so_multisig o) (so_signatures o)) with
    | Err err => (l, Rejected err)
    | Ok sigs =>
      if so_sign_only o then (l, Signed m (verified m sigs))
      else process_transaction e fee net (cf_dry_run cfg) (mg_hash m) (mkTx (mg_payer m) [TxTokenWrap (mg_ix m)] (map fst (verified m sigs))) l
    end
  end.

(** ** The other commands: only the payer signs *)
(** create_mint.rs:187-196, create_escrow_account.rs:152-159, close_stuck_escrow.rs:119-127: [new_signed_with_payer] panics if
    the payer is only an address ([strict]); sync_metadata_to_*.rs: [partial_sign] leaves its slot empty. *)
Definition process_plain (e : env) (fee : N) (net : network) (cfg : config) (strict : bool) (r : res (option transaction)) (l : ledger) : ledger * report :=
  match r with
  | Err err => (l, Rejected err)
  | Ok None => (l, NothingToDo)
  | Ok (Some t) =>
    if sg_signs (cf_payer cfg) then process_transaction e fee net (cf_dry_run cfg) (nt_latest net) t l
    else if strict then (l, Rejected EPanic)
    else process_transaction e fee net (cf_dry_run cfg) (nt_latest net) (mkTx (tr_payer t) (tr_ixs t) []) l
  end.
Definition one {A} (r : res A) : res (option A) := x <- r ;; Ok (Some x).

(** cli.rs:119-140, main.rs:26-42 *)
Definition run_line (e : env) (fee : N) (net : network) (cfg : config) (c : command_line) (l : ledger) : ledger * report :=
  let payer := sg_key (cf_payer cfg) in
  match c with
  | LineCreateMint u wtp i => process_plain e fee net cfg true (one (cli_create_mint e payer u wtp i l)) l
  | LineCreateEscrow u wtp i => process_plain e fee net cfg true (cli_create_escrow e payer u wtp i l) l
  | LineWrap source wtp n mint recipient utp o =>
      sign_and_process e fee net cfg o
        (wrap_instruction e payer source wtp n mint recipient utp (sg_key (authority_or (cf_payer cfg) (so_authority o))) (map sg_key (so_multisig o)) l) l
  | LineUnwrap source recipient n mint wtp utp o =>
      sign_and_process e fee net cfg o
        (unwrap_instruction e source recipient n mint wtp utp (sg_key (authority_or (cf_payer cfg) (so_authority o))) (map sg_key (so_multisig o)) l) l
  | LineCloseStuckEscrow u d wtp => process_plain e fee net cfg true (one (cli_close_stuck_escrow e payer u d wtp l)) l
  | LineSyncToToken2022 u s p => process_plain e fee net cfg false (one (cli_sync_to_token_2022 e payer u s p l)) l
  | LineSyncToSplToken u s p => process_plain e fee net cfg false (one (cli_sync_to_spl_token e payer u s p l)) l
  | LineFindPdas u wtp =>
      match cli_find_pdas e u wtp l with
      | Ok (w, a, b, esc) => (l, Addresses w a b esc)
      | Err err => (l, Rejected err)
      end
  end.
