(** * Cli.v — the command line client (clients/cli/src): from the ledger it reads over RPC to the transaction it
    signs and sends, and what the runtime does with that transaction.

    SIMPLIFICATIONS.  Each command reads one consistent state of the ledger.  Texts printed, block hashes, dry runs
    and RPC failures other than "account not found" are not modelled; a command that stops with a message (or a
    panic) returns an error, its text is not modelled. *)
From Verif Require Import Base Codec State Pda TokenProg Cpi Ata Meta Processor Builders.

(** ** Transactions *)

(** The instructions client transactions are made of. *)
Inductive tx_ix :=
| TxTransfer (from to : pubkey) (n : N)               (* solana_system_interface::instruction::transfer *)
| TxAssociated (payer wallet mnt p : pubkey)          (* create_associated_token_account *)
| TxTokenWrap (i : tw_instruction).                   (* spl_token_wrap::instruction *)
Definition ix_accounts (e : env) (ix : tx_ix) : list info :=
  match ix with
  | TxTransfer from to _ => [meta_w from true; meta_w to false]
  | TxAssociated payer wallet mnt p =>
      [meta_w payer true; meta_w (ata_of e wallet mnt p) false; meta_r wallet false; meta_r mnt false; meta_r system_id false; meta_r p false]
  | TxTokenWrap i => tx_metas i
  end.

(** solana_transaction::Transaction: fee payer, instructions, and the keys with a valid signature. *)
Record transaction := mkTx { tr_payer : pubkey; tr_ixs : list tx_ix; tr_signed : list pubkey }.

(** Message compilation (external): privileges are joined over all instructions; the payer signs and is writable. *)
Definition must_sign (e : env) (payer : pubkey) (ixs : list tx_ix) (k : pubkey) : bool :=
  pk_eqb k payer || existsb (fun ix => is_sig (ix_accounts e ix) k) ixs.
Definition may_write (e : env) (payer : pubkey) (ixs : list tx_ix) (k : pubkey) : bool :=
  pk_eqb k payer || existsb (fun ix => is_wr (ix_accounts e ix) k) ixs.
Definition all_keys (e : env) (payer : pubkey) (ixs : list tx_ix) : list pubkey :=
  payer :: flat_map (fun ix => map i_key (ix_accounts e ix)) ixs.
(** The accounts an instruction is executed with: its own, with the privileges of the whole transaction. *)
Definition raised (e : env) (payer : pubkey) (ixs : list tx_ix) (ms : list info) : list info :=
  map (fun m => mkInfo (i_key m) (must_sign e payer ixs (i_key m)) (may_write e payer ixs (i_key m))) ms.

(** ** What the runtime does with a transaction (external) *)

(** System program, Transfer. *)
Definition sys_transfer (from to : pubkey) (n : N) (l : ledger) : res ledger :=
  guard (data_is_empty (a_data (l from))) EInvalidArgument ;;
  guard (n <=? a_lamports (l from)) (ECustom 1) ;;
  guard (pk_eqb (a_owner (l from)) system_id) (ERt ExternalAccountLamportSpend) ;;
  let l1 := upd l from (with_lamports (a_lamports (l from) - n) (l from)) in
  guard (u64_ok (a_lamports (l1 to) + n)) EArithmeticOverflow ;;
  Ok (upd l1 to (with_lamports (a_lamports (l1 to) + n) (l1 to))).
(** Associated token program, Create: the payer tops the address up to rent exemption, then as in Ata.v. *)
Definition ata_create_paid (e : env) (payer wallet mnt p : pubkey) (l : ledger) : res ledger :=
  let k := ata_of e wallet mnt p in
  guard (pk_eqb (a_owner (l k)) system_id) EInvalidAccountOwner ;;
  m <- unpack_mint p (a_data (l mnt)) ;;
  let missing := N.max 1 (e_rent e (tok_space (init_account_exts p m true))) - a_lamports (l k) in
  l1 <- (if missing =? 0 then Ok l else sys_transfer payer k missing l) ;;
  ata_create e p wallet mnt l1.
Definition run_ix (e : env) (payer : pubkey) (ixs : list tx_ix) (ix : tx_ix) (l : ledger) : res ledger :=
  match ix with
  | TxTransfer from to n => sys_transfer from to n l
  | TxAssociated pay wallet mnt p => ata_create_paid e pay wallet mnt p l
  | TxTokenWrap i => process_instruction e (mkCtx (tx_prog i) (raised e payer ixs (tx_metas i))) (tx_data i) l
  end.
Fixpoint run_ixs (e : env) (payer : pubkey) (all ixs : list tx_ix) (l : ledger) : res ledger :=
  match ixs with
  | [] => Ok l
  | ix :: r => l1 <- run_ix e payer all ix l ;; run_ixs e payer all r l1
  end.

(** The rent check at the end of a transaction: a writable account must end up empty of lamports or rent-exempt, unless
    it was below the minimum before, kept its size and did not gain lamports. *)
Definition rent_ok (e : env) (before after : account) : bool :=
  (a_lamports after =? 0) || (e_rent e (data_len (a_data after)) <=? a_lamports after) ||
  ((0 <? a_lamports before) && (a_lamports before <? e_rent e (data_len (a_data before))) &&
   (data_len (a_data before) =? data_len (a_data after)) && (a_lamports after <=? a_lamports before)).
Definition rents_ok (e : env) (payer : pubkey) (ixs : list tx_ix) (l l' : ledger) : bool :=
  forallb (fun k => negb (may_write e payer ixs k) || rent_ok e (l k) (l' k)) (all_keys e payer ixs).

(** Signatures first; then the fee, which is kept whatever happens next; then all instructions or none. *)
Definition charge (payer : pubkey) (fee : N) (l : ledger) : ledger := upd l payer (with_lamports (a_lamports (l payer) - fee) (l payer)).
Definition send (e : env) (fee : N) (t : transaction) (l : ledger) : ledger * res unit :=
  let l1 := charge (tr_payer t) fee l in
  if negb (forallb (fun k => negb (must_sign e (tr_payer t) (tr_ixs t) k) || pk_mem k (tr_signed t)) (all_keys e (tr_payer t) (tr_ixs t)))
  then (l, Err EMissingRequiredSignature)
  else if negb (pk_eqb (a_owner (l (tr_payer t))) system_id && data_is_empty (a_data (l (tr_payer t))) && (fee <=? a_lamports (l (tr_payer t)))
                && rent_ok e (l (tr_payer t)) (l1 (tr_payer t)))
  then (l, Err (ERt InsufficientLamports))
  else match run_ixs e (tr_payer t) (tr_ixs t) (tr_ixs t) l1 with
       | Ok l2 => if rents_ok e (tr_payer t) (tr_ixs t) l1 l2 then (l2, Ok tt) else (l1, Err EAccountNotRentExempt)
       | Err err => (l1, Err err)
       end.

(** ** Signing *)
(** A signer source: a key pair (or hardware wallet, or an existing signature: Presigner), or only an address (NullSigner,
    allowed by [allow_null_signer] in wrap.rs:214-217 and unwrap.rs). *)
Record signer := mkSigner { sg_key : pubkey; sg_signs : bool }.
(** Transaction::partial_sign: every signer given must be asked for by the message (else panic); a later signer of the
    same key overrides an earlier one. *)
Definition signs (ss : list signer) (k : pubkey) : bool :=
  fold_left (fun acc s => if pk_eqb (sg_key s) k then sg_signs s else acc) ss false.
Definition partial_sign (e : env) (payer : pubkey) (ixs : list tx_ix) (ss : list signer) : res transaction :=
  guard (forallb (fun s => must_sign e payer ixs (sg_key s)) ss) EPanic ;;
  Ok (mkTx payer ixs (filter (signs ss) (map sg_key ss))).

(** ** RPC reads *)
(** RpcClient::get_account: an account without lamports does not exist. *)
Definition get_account (l : ledger) (k : pubkey) : res account :=
  if a_lamports (l k) =? 0 then Err EInvalidArgument else Ok (l k).
(** common.rs:90-93 *)
Definition get_account_owner (l : ledger) (k : pubkey) : res pubkey := a <- get_account l k ;; Ok (a_owner a).
(** common.rs:81-88 *)
Definition get_mint_for_token_account (l : ledger) (k : pubkey) : res pubkey :=
  a <- get_account l k ;; t <- pod_unpack_tok (a_data a) ;; Ok (t_mint t).
(** common.rs:95-117 *)
Definition assert_mint_account (l : ledger) (k : pubkey) : res unit :=
  a <- get_account l k ;;
  guard (pk_eqb (a_owner a) spl_token_id || pk_eqb (a_owner a) t22_id) EInvalidArgument ;;
  _ <- pod_unpack_mint (a_data a) ;; Ok tt.
(** common.rs:30-37 *)
Definition parse_token_program (p : pubkey) : res pubkey :=
  guard (pk_eqb p spl_token_id || pk_eqb p t22_id) EInvalidArgument ;; Ok p.
Definition parse_opt (o : option pubkey) : res (option pubkey) :=
  match o with None => Ok None | Some p => q <- parse_token_program p ;; Ok (Some q) end.
Definition lamports_of (l : ledger) (k : pubkey) : N := match get_account l k with Ok a => a_lamports a | Err _ => 0 end.

(** ** Commands.  [payer] is the fee payer of the configuration. *)

(** find_pdas.rs:79-103: wrapped mint, authority, backpointer, escrow. *)
Definition cli_find_pdas (e : env) (u wtp : pubkey) (l : ledger) : res (pubkey * pubkey * pubkey * pubkey) :=
  _ <- parse_token_program wtp ;;
  w <- get_wrapped_mint_address e u wtp ;;
  b <- get_wrapped_mint_backpointer_address e w ;;
  a <- get_wrapped_mint_authority e w ;;
  utp <- get_account_owner l u ;;
  esc <- get_escrow_address e u utp wtp ;;
  Ok (w, a, b, esc).

(** create_mint.rs:102-209 *)
Definition fund (payer k : pubkey) (n : N) : list tx_ix := if 0 <? n then [TxTransfer payer k n] else [].
Definition cli_create_mint (e : env) (payer u wtp : pubkey) (idempotent : bool) (l : ledger) : res transaction :=
  _ <- parse_token_program wtp ;;
  w <- get_wrapped_mint_address e u wtp ;;                                                        (* 106-107 *)
  b <- get_wrapped_mint_backpointer_address e w ;;                                                (* 108 *)
  let size := if pk_eqb wtp t22_id then default_space else mint_base_len in                       (* 124-128 *)
  let missing_w := e_rent e size - lamports_of l w in                                             (* 118-133 *)
  let missing_b := e_rent e 32 - lamports_of l b in                                               (* 150-162 *)
  Ok (mkTx payer (fund payer w missing_w ++ fund payer b missing_b ++
                  [TxTokenWrap (build_create_mint tw_id w b u wtp idempotent)]) [payer]).          (* 134-194 *)

(** create_escrow_account.rs:88-171; [None]: nothing to do. *)
Definition cli_create_escrow (e : env) (payer u wtp : pubkey) (idempotent : bool) (l : ledger) : res (option transaction) :=
  _ <- parse_token_program wtp ;;
  _ <- assert_mint_account l u ;;                                                                 (* 96 *)
  utp <- get_account_owner l u ;;                                                                 (* 99 *)
  w <- get_wrapped_mint_address e u wtp ;;                                                        (* 102-103 *)
  a <- get_wrapped_mint_authority e w ;;                                                          (* 104 *)
  esc <- get_escrow_address e u utp wtp ;;                                                        (* 116-120 *)
  match get_account l esc with                                                                    (* 122-164 *)
  | Ok _ => if idempotent then Ok None else Err EInvalidArgument
  | Err _ => Ok (Some (mkTx payer [TxAssociated payer a u utp] [payer]))
  end.

(** wrap.rs:40-103: arguments *)
Record wrap_args := mkWrapArgs {
  wa_source : pubkey; wa_wtp : pubkey; wa_amount : N;
  wa_authority : option signer; wa_mint : option pubkey; wa_recipient : option pubkey; wa_utp : option pubkey;
  wa_multisig : list signer; wa_presigners : list signer }.
(** wrap.rs:286-304 and unwrap.rs:244-265: who signs. *)
Definition tx_signers (payer authority : signer) (multisig presigners : list signer) : list signer :=
  [payer] ++ (if negb (pk_eqb (sg_key payer) (sg_key authority)) && is_nil multisig then [authority] else []) ++ multisig ++ presigners.
(** wrap.rs:174-334 *)
Definition cli_wrap (e : env) (payer : pubkey) (x : wrap_args) (l : ledger) : res transaction :=
  _ <- parse_token_program (wa_wtp x) ;;
  _ <- parse_opt (wa_utp x) ;;
  u <- match wa_mint x with Some m => Ok m | None => get_mint_for_token_account l (wa_source x) end ;;   (* 182-186 *)
  w <- get_wrapped_mint_address e u (wa_wtp x) ;;                                                 (* 199-200 *)
  a <- get_wrapped_mint_authority e w ;;                                                          (* 201 *)
  r <- match wa_recipient x with Some k => Ok k | None => get_associated_token_address e payer w (wa_wtp x) end ;;  (* 203-210 *)
  let authority := match wa_authority x with Some s => s | None => mkSigner payer true end in     (* 217-231 *)
  utp <- match wa_utp x with Some p => Ok p | None => get_account_owner l (wa_source x) end ;;     (* 253-257 *)
  esc <- get_escrow_address e u utp (wa_wtp x) ;;                                                 (* 259-263 *)
  let ix := build_wrap tw_id r w a utp (wa_wtp x) (wa_source x) u esc (sg_key authority) (map sg_key (wa_multisig x)) (wa_amount x) in
  partial_sign e payer [TxTokenWrap ix] (tx_signers (mkSigner payer true) authority (wa_multisig x) (wa_presigners x)).

(** unwrap.rs:40-105: arguments *)
Record unwrap_args := mkUnwrapArgs {
  ua_source : pubkey; ua_recipient : pubkey; ua_amount : N;
  ua_authority : option signer; ua_mint : option pubkey; ua_wtp : option pubkey; ua_utp : option pubkey;
  ua_multisig : list signer; ua_presigners : list signer }.
(** A given value must agree with the one found. *)
Definition agreed (given : option pubkey) (found : pubkey) : res pubkey :=
  match given with Some k => guard (pk_eqb k found) EInvalidArgument ;; Ok k | None => Ok found end.
(** unwrap.rs:183-293 and resolve_addresses 306-409 *)
Definition cli_unwrap (e : env) (payer : pubkey) (x : unwrap_args) (l : ledger) : res transaction :=
  _ <- parse_opt (ua_wtp x) ;; _ <- parse_opt (ua_utp x) ;;
  q1 <- get_account_owner l (ua_source x) ;; wtp <- agreed (ua_wtp x) q1 ;;
  q2 <- get_mint_for_token_account l (ua_recipient x) ;; u <- agreed (ua_mint x) q2 ;;
  q3 <- get_account_owner l u ;; utp <- agreed (ua_utp x) q3 ;;
  w <- get_wrapped_mint_address e u wtp ;;
  a <- get_wrapped_mint_authority e w ;;
  esc <- get_escrow_address e u utp wtp ;;
  let authority := match ua_authority x with Some s => s | None => mkSigner payer true end in
  let ix := build_unwrap tw_id esc (ua_recipient x) a u wtp utp (ua_source x) w (sg_key authority) (map sg_key (ua_multisig x)) (ua_amount x) in
  partial_sign e payer [TxTokenWrap ix] (tx_signers (mkSigner payer true) authority (ua_multisig x) (ua_presigners x)).

(** close_stuck_escrow.rs:72-136 *)
Definition cli_close_stuck_escrow (e : env) (payer u destination wtp : pubkey) (l : ledger) : res transaction :=
  _ <- parse_token_program wtp ;;
  utp <- get_account_owner l u ;;
  guard (pk_eqb utp t22_id) EInvalidArgument ;;
  w <- get_wrapped_mint_address e u wtp ;;
  a <- get_wrapped_mint_authority e w ;;
  esc <- get_escrow_address e u utp wtp ;;
  Ok (mkTx payer [TxTokenWrap (build_close_stuck_escrow tw_id esc destination u w a)] [payer]).

(** sync_metadata_to_token2022.rs:163-196 *)
Definition resolve_source_metadata (e : env) (u : pubkey) (l : ledger) : res (option pubkey) :=
  acct <- get_account l u ;;
  md <- metaplex_find_pda e u ;;
  if pk_eqb (a_owner acct) spl_token_id then Ok (Some (fst md))
  else if pk_eqb (a_owner acct) t22_id then
    m <- pod_unpack_mint (a_data acct) ;;
    Ok (match ext_pointer m with
        | Some (_, Some k) => if pk_eqb k u then None else Some k
        | Some (_, None) => Some (fst md)
        | None => Some (fst md)
        end)
  else Err EInvalidArgument.
(** sync_metadata_to_token2022.rs:109-161 *)
Definition cli_sync_to_token_2022 (e : env) (payer u : pubkey) (source program : option pubkey) (l : ledger) : res transaction :=
  w <- get_wrapped_mint_address e u t22_id ;;
  a <- get_wrapped_mint_authority e w ;;
  src <- match source with Some k => Ok (Some k) | None => resolve_source_metadata e u l end ;;
  Ok (mkTx payer [TxTokenWrap (build_sync_to_token_2022 tw_id w a u src program)] [payer]).
(** sync_metadata_to_spl_token.rs:105-154 *)
Definition cli_sync_to_spl_token (e : env) (payer u : pubkey) (source program : option pubkey) (l : ledger) : res transaction :=
  w <- get_wrapped_mint_address e u spl_token_id ;;
  a <- get_wrapped_mint_authority e w ;;
  md <- metaplex_find_pda e w ;;
  Ok (mkTx payer [TxTokenWrap (build_sync_to_spl_token tw_id (fst md) a w u source program)] [payer]).
