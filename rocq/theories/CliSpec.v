(** * CliSpec.v — the vocabulary of the properties about transactions and the command line client. *)
From Verif Require Import Base Codec State Pda TokenProg Cpi Ata Meta Processor Builders Cli PdaProofs Spec HistorySpec.

(** An ordinary account that somebody holds the private key of: no data, with the system program, and no derived address. *)
Definition wallet (l : ledger) (k : pubkey) : Prop :=
  a_owner (l k) = system_id /\ a_data (l k) = DRaw [] /\ is_tw_pda k = false /\ is_ata k = false.

(** A transaction goes through, or is refused with an error. *)
Definition accepted (e : env) (fee : N) (t : transaction) (l l' : ledger) : Prop := send e fee t l = (l', Ok tt).
Definition refused (e : env) (fee : N) (t : transaction) (l l' : ledger) (err : error) : Prop := send e fee t l = (l', Err err).

(** [payer] paid [n] lamports; its account is otherwise the same. *)
Definition paid (l l' : ledger) (payer : pubkey) (n : N) : Prop :=
  lamports l payer = lamports l' payer + n /\ a_data (l' payer) = a_data (l payer) /\ a_owner (l' payer) = a_owner (l payer).
(** Nothing else changed. *)
Definition only_changed (l l' : ledger) (ks : list pubkey) : Prop := forall k, ~ In k ks -> l' k = l k.

(** Transactions that can exist: nobody can sign for token-wrap's addresses, and the instructions go to the programs they
    name. *)
Definition possible (t : transaction) : Prop :=
  (forall k, In k (tr_signed t) -> is_tw_pda k = false) /\
  forall ix, In ix (tr_ixs t) ->
    match ix with
    | TxTransfer _ _ _ => True
    | TxAssociated _ _ _ p => spl_or_t22 p
    | TxTokenWrap i => tx_prog i = tw_id
    end.

(** The client's commands, and the transaction a command leads to ([None]: it finds nothing to do). *)
Inductive command :=
| CmdCreateMint (u wtp : pubkey) (idempotent : bool)
| CmdCreateEscrow (u wtp : pubkey) (idempotent : bool)
| CmdWrap (x : wrap_args)
| CmdUnwrap (x : unwrap_args)
| CmdCloseStuckEscrow (u destination wtp : pubkey)
| CmdSyncToToken2022 (u : pubkey) (source program : option pubkey)
| CmdSyncToSplToken (u : pubkey) (source program : option pubkey).
Definition some {A} (r : res A) : res (option A) := match r with Ok x => Ok (Some x) | Err err => Err err end.
Definition transaction_of (e : env) (payer : pubkey) (c : command) (l : ledger) : res (option transaction) :=
  match c with
  | CmdCreateMint u wtp i => some (cli_create_mint e payer u wtp i l)
  | CmdCreateEscrow u wtp i => cli_create_escrow e payer u wtp i l
  | CmdWrap x => some (cli_wrap e payer x l)
  | CmdUnwrap x => some (cli_unwrap e payer x l)
  | CmdCloseStuckEscrow u d wtp => some (cli_close_stuck_escrow e payer u d wtp l)
  | CmdSyncToToken2022 u s p => some (cli_sync_to_token_2022 e payer u s p l)
  | CmdSyncToSplToken u s p => some (cli_sync_to_spl_token e payer u s p l)
  end.
(** The keys and signatures the user hands to a command, besides the payer's. *)
Definition signers_of (c : command) : list signer :=
  match c with
  | CmdWrap x => match wa_authority x with Some s => [s] | None => [] end ++ wa_multisig x ++ wa_presigners x
  | CmdUnwrap x => match ua_authority x with Some s => [s] | None => [] end ++ ua_multisig x ++ ua_presigners x
  | _ => []
  end.

(** An optional argument that is left out, or says the right thing. *)
Definition given (o : option pubkey) (k : pubkey) : Prop := o = None \/ o = Some k.
(** Who acts: the authority named, or the payer. *)
Definition acting (payer : pubkey) (authority : option signer) : signer := match authority with Some s => s | None => mkSigner payer true end.
(** The keys that must sign: the payer and the owner, or the owner's members if it is a multisig. *)
Definition asked (payer owner : pubkey) (members : list pubkey) : list pubkey :=
  payer :: match members with [] => [owner] | _ => members end.
(** All signatures are there: every signature made beforehand is asked for and valid, and everybody else asked signs now. *)
Definition all_sign (payer : pubkey) (authority : signer) (multisig presigners : list signer) : Prop :=
  let ks := asked payer (sg_key authority) (map sg_key multisig) in
  (forall s, In s presigners -> In (sg_key s) ks /\ sg_signs s = true) /\
  forall k, In k ks -> (exists s, In s presigners /\ sg_key s = k) \/
    forall s, In s (match multisig with [] => [authority] | _ => multisig end) -> sg_key s = k -> sg_signs s = true.
(** The arguments ask to wrap [n] of [owner]'s tokens of [u] from [source], to [recipient]. *)
Definition wrap_asks (e : env) (payer : pubkey) (x : wrap_args) (u utp wtp source recipient owner : pubkey) (members : list pubkey) (n : N) : Prop :=
  wa_source x = source /\ wa_wtp x = wtp /\ wa_amount x = n /\ given (wa_mint x) u /\ given (wa_utp x) utp /\
  (wa_recipient x = Some recipient \/
   (wa_recipient x = None /\ recipient = ata_of e payer (wrapped_mint_of e u wtp) wtp /\ derivable e (ata_seeds payer (wrapped_mint_of e u wtp) wtp) ata_id)) /\
  sg_key (acting payer (wa_authority x)) = owner /\ map sg_key (wa_multisig x) = members /\
  all_sign payer (acting payer (wa_authority x)) (wa_multisig x) (wa_presigners x).
Definition unwrap_asks (payer : pubkey) (x : unwrap_args) (u utp wtp source recipient owner : pubkey) (members : list pubkey) (n : N) : Prop :=
  ua_source x = source /\ ua_recipient x = recipient /\ ua_amount x = n /\ given (ua_mint x) u /\ given (ua_utp x) utp /\ given (ua_wtp x) wtp /\
  sg_key (acting payer (ua_authority x)) = owner /\ map sg_key (ua_multisig x) = members /\
  all_sign payer (acting payer (ua_authority x)) (ua_multisig x) (ua_presigners x).
(** [owner] acts alone, or as a multisig of program [p] with these members, enough of them. *)
Definition may_act (l : ledger) (p owner : pubkey) (members : list pubkey) : Prop :=
  (members = [] /\ forall m, a_data (l owner) = DMultisig m -> a_owner (l owner) <> p) \/
  (members <> [] /\ exists m, a_owner (l owner) = p /\ a_data (l owner) = DMultisig m /\
     ms_m m <= N.of_nat (length (filter (fun k => pk_mem k members) (ms_signers m)))).
(** What the token library's helpers find behind the nine named accounts: given that [members] follow and all sign, the
    multisig helper finds the members, and the transfer helper appends them if they act for [owner]'s multisig. *)
Definition helper_finds (e : env) (l : ledger) (owner : pubkey) (members : list pubkey) : Prop :=
  forall l1 accounts, (forall k, a_data (l1 k) = a_data (l k) /\ a_owner (l1 k) = a_owner (l k)) ->
    map i_key (skipn 9 accounts) = members -> (forall i, In i (skipn 9 accounts) -> i_signer i = true) ->
    e_multisig e l1 owner (skipn 9 accounts) = Ok members.
Definition helper_appends (e : env) (l : ledger) (owner : pubkey) (members : list pubkey) : Prop :=
  forall l1 accounts, (forall k, a_data (l1 k) = a_data (l k) /\ a_owner (l1 k) = a_owner (l k)) ->
    map i_key (skipn 8 accounts) = owner :: members -> (forall i, In i (skipn 9 accounts) -> i_signer i = true) ->
    e_extra e l1 accounts (skipn 9 accounts) = Ok (map (fun k => meta_r k true) members).
(** The transfer helper appends nothing but accounts that have signed. *)
Definition helper_usual (e : env) : Prop :=
  forall accounts, (forall i, In i (skipn 9 accounts) -> i_signer i = true) -> appends_signers e accounts.

(** Where the metadata of mint [u] is: on the mint itself ([None]), or on the account its pointer names; without a pointer,
    on its Metaplex account. *)
Inductive metadata_home (e : env) (l : ledger) (u : pubkey) : option pubkey -> Prop :=
| home_spl : a_owner (l u) = spl_token_id -> metadata_home e l u (Some (metaplex_of e u))
| home_plain m : mint_account l u t22_id m -> no_pointer m -> metadata_home e l u (Some (metaplex_of e u))
| home_self m : mint_account l u t22_id m -> pointer_of m (Some u) -> metadata_home e l u None
| home_pointer m k : mint_account l u t22_id m -> pointer_of m (Some k) -> k <> u -> metadata_home e l u (Some k).
(** The arguments of a sync: the source may be left out; a program that is neither Metaplex nor Token-2022 must be named. *)
Definition sync_asks (e : env) (l : ledger) (u : pubkey) (source program : option pubkey) : Prop :=
  forall k, metadata_home e l u (Some k) -> given source k /\ (a_owner (l k) <> mpl_id -> program = Some (a_owner (l k))).
(** [t] is a copy of [src]: same name, symbol, URI, and additional fields. *)
Definition copied (src t : token_metadata) : Prop :=
  tm_name t = tm_name src /\ tm_symbol t = tm_symbol src /\ tm_uri t = tm_uri src /\ same_fields (tm_additional src) (tm_additional t).

(** The arguments name the source, unless the mint holds its metadata itself; a third program must be named too. *)
Definition spl_sync_asks (e : env) (l : ledger) (u : pubkey) (source program : option pubkey) : Prop :=
  forall k, metadata_home e l u (Some k) -> source = Some k /\ (a_owner (l k) <> mpl_id -> program = Some (a_owner (l k))).
(** The Metaplex account [md] of the wrapped mint is still to be made — and [a], the mint's authority, can pay for it and is left
    with nothing or with its rent — or is there, changeable, and [a]'s. *)
Definition to_be_made (e : env) (l : ledger) (md a : pubkey) : Prop :=
  unallocated l md /\ e_mpl_cost e <= lamports l a /\ (lamports l a = e_mpl_cost e \/ e_rent e 0 + e_mpl_cost e <= lamports l a) /\
  e_rent e 607 <= lamports l md + e_mpl_cost e.
Definition ours (l : ledger) (md a : pubkey) (old : mpl_metadata) : Prop :=
  metaplex_account l md old /\ mx_update_authority old = a /\ mx_is_mutable old = true.
