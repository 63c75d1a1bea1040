(** * Wire.v — model: transactions on the wire (external: solana_message and solana_transaction for the command line client,
    @solana/kit for the JavaScript client), and the limit on their size.

    Simplified: lookup tables are left out (neither client uses them).  The signatures themselves are 64 bytes each; only
    their number counts here.  Numbers of accounts and indices above 255 make the real encoders fail; they do not fit into a
    packet anyway (32 bytes per account). *)
From Verif Require Import Base Codec State Pda TokenProg Cpi Ata Meta Processor Builders Cli Js.

(** ** How the bytes are chosen: the 32 bytes of an address, and the order of the accounts of one class (by bytes in Rust,
    by a collator on base58 texts in kit). *)
Record encoding := mkEncoding { en_key : pubkey -> list N; en_order : list pubkey -> list pubkey }.

(** compact-u16 (solana_short_vec, getShortU16Encoder): 7 bits per byte, lowest first. *)
Definition compact (n : N) : list N :=
  if n <? 128 then [n]
  else if n <? 16384 then [128 + n mod 128; n / 128]
  else [128 + n mod 128; 128 + (n / 128) mod 128; n / 16384].

(** An instruction before compilation: program, accounts, data. *)
Record wire_ix := mkWireIx { wi_program : pubkey; wi_accounts : list info; wi_data : list N }.
(** System program Transfer: u32 2 and the amount; associated token program Create: one byte 0. *)
Definition wire_of (e : env) (ix : tx_ix) : wire_ix :=
  match ix with
  | TxTransfer _ _ n => mkWireIx system_id (ix_accounts e ix) ([2; 0; 0; 0] ++ to_le 8 n)
  | TxAssociated _ _ _ _ => mkWireIx ata_id (ix_accounts e ix) [0]
  | TxTokenWrap i => mkWireIx (tx_prog i) (tx_metas i) (tx_data i)
  end.

(** ** Compilation.  Every account once; the payer first, then signers (writable, read-only), then the others (writable,
    read-only).  Programs are accounts, too. *)
Definition w_signs (payer : pubkey) (ixs : list wire_ix) (k : pubkey) : bool :=
  pk_eqb k payer || existsb (fun ix => is_sig (wi_accounts ix) k) ixs.
Definition w_writes (payer : pubkey) (ixs : list wire_ix) (k : pubkey) : bool :=
  pk_eqb k payer || existsb (fun ix => is_wr (wi_accounts ix) k) ixs.
Definition w_others (payer : pubkey) (ixs : list wire_ix) : list pubkey :=
  filter (fun k => negb (pk_eqb k payer)) (nodup pk_dec (flat_map (fun ix => map i_key (wi_accounts ix) ++ [wi_program ix]) ixs)).
Definition w_class (c : encoding) (payer : pubkey) (ixs : list wire_ix) (signs writes : bool) : list pubkey :=
  en_order c (filter (fun k => Bool.eqb (w_signs payer ixs k) signs && Bool.eqb (w_writes payer ixs k) writes) (w_others payer ixs)).
Definition w_keys (c : encoding) (payer : pubkey) (ixs : list wire_ix) : list pubkey :=
  payer :: w_class c payer ixs true true ++ w_class c payer ixs true false ++ w_class c payer ixs false true ++ w_class c payer ixs false false.
(** The header: signatures; read-only accounts among the signers; read-only accounts among the others. *)
Definition w_signatures (c : encoding) (payer : pubkey) (ixs : list wire_ix) : nat :=
  S (length (w_class c payer ixs true true) + length (w_class c payer ixs true false)).
Definition w_header (c : encoding) (payer : pubkey) (ixs : list wire_ix) : list N :=
  [N.of_nat (w_signatures c payer ixs); N.of_nat (length (w_class c payer ixs true false)); N.of_nat (length (w_class c payer ixs false false))].
(** The place of an account in the list. *)
Fixpoint place (k : pubkey) (ks : list pubkey) : nat :=
  match ks with [] => 0 | x :: r => if pk_eqb x k then 0 else S (place k r) end%nat.
Definition w_list (x : list N) : list N := compact (N.of_nat (length x)) ++ x.
Definition w_ix (ks : list pubkey) (ix : wire_ix) : list N :=
  N.of_nat (place (wi_program ix) ks) :: w_list (map (fun m => N.of_nat (place (i_key m) ks)) (wi_accounts ix)) ++ w_list (wi_data ix).
(** The message: legacy ([Message], Rust client) or version 0 (`createTransactionMessage({ version: 0 })`). *)
Definition w_message (c : encoding) (v0 : bool) (payer : pubkey) (ixs : list wire_ix) (hash : N) : list N :=
  let ks := w_keys c payer ixs in
  (if v0 then [128] else []) ++ w_header c payer ixs ++
  compact (N.of_nat (length ks)) ++ flat_map (en_key c) ks ++ to_le 32 hash ++
  compact (N.of_nat (length ixs)) ++ flat_map (w_ix ks) ixs ++
  (if v0 then [0] else []).
(** Bytes of the whole transaction: a list of 64-byte signatures, and the message. *)
Definition w_size (c : encoding) (v0 : bool) (payer : pubkey) (ixs : list wire_ix) : N :=
  let s := w_signatures c payer ixs in
  N.of_nat (length (compact (N.of_nat s)) + 64 * s + length (w_message c v0 payer ixs 0)).

(** ** The limit: PACKET_DATA_SIZE *)
Definition packet : N := 1232.
Definition transaction_size (c : encoding) (v0 : bool) (e : env) (t : transaction) : N := w_size c v0 (tr_payer t) (map (wire_of e) (tr_ixs t)).
(** What comes of a transaction when the limit is enforced: an RPC node refuses one that is too large. *)
Definition deliver (c : encoding) (v0 : bool) (e : env) (fee : N) (t : transaction) (l : ledger) : ledger * res unit :=
  if transaction_size c v0 e t <=? packet then send e fee t l else (l, Err EInvalidArgument).
(** The bytes a message of one token-wrap instruction (Js.v) stands for: what everybody signs. *)
Definition message_bytes (c : encoding) (v0 : bool) (m : message) : list N :=
  w_message c v0 (mg_payer m) [mkWireIx (tx_prog (mg_ix m)) (tx_metas (mg_ix m)) (tx_data (mg_ix m))] (mg_hash m).
