(** * HistorySpec.v — histories: any interleaving of token-wrap instructions, direct use of the
    token programs by anybody, and activity of all other programs.

    The vocabulary of the properties that hold in every reachable state. *)
From Verif Require Import Base Codec State Pda TokenProg Cpi Ata Meta Processor PdaProofs Spec.

(** Addresses derived under token-wrap have no private key and only token-wrap itself can sign
    for them: in a transaction, or a call by another program, they never carry a signature. *)
Definition no_tw_signer (accounts : list info) : Prop := forall k, signed accounts k -> is_tw_pda k = false.

(** Programs whose accounts only change by their own (modelled) instructions. *)
Definition ruled (p : pubkey) : Prop := p = spl_token_id \/ p = t22_id \/ p = tw_id.

(** The mint of wrapped SOL: nine decimals, no authorities, no supply of its own. *)
Definition wrapped_sol_mint : mint := mkMint None 0 9 true None [] 82.
Definition native_mint (k : pubkey) : Prop := k = native_mint_id \/ k = native_mint_2022_id.

(** ** Everything else.  The system program, wallets and all other programs may do anything, except
    what the runtime forbids: touching data, owner or lamports of accounts of the programs above
    (they may add lamports), or handing them accounts that are not zeroed, or signing for
    token-wrap's addresses or for associated token addresses (see Ata.v).  (Token-2022's wrapped-SOL mint is set up once by CreateNativeMint,
    which is not modelled otherwise.) *)
Definition world_change (l l' : ledger) : Prop :=
  forall k,
    (ruled (a_owner (l k)) ->
       a_data (l' k) = a_data (l k) /\ a_owner (l' k) = a_owner (l k) /\ a_lamports (l k) <= a_lamports (l' k)) /\
    (is_tw_pda k = true -> a_data (l' k) = a_data (l k) /\ a_owner (l' k) = a_owner (l k)) /\
    (~ ruled (a_owner (l k)) -> ruled (a_owner (l' k)) ->
       (exists n, a_data (l' k) = DRaw (zeros n)) \/
       (k = native_mint_2022_id /\ a_owner (l' k) = t22_id /\ a_data (l' k) = DMint wrapped_sol_mint)) /\
    (native_mint k ->
       a_data (l' k) = a_data (l k) /\ a_owner (l' k) = a_owner (l k) \/
       (k = native_mint_2022_id /\ a_owner (l' k) = t22_id /\ a_data (l' k) = DMint wrapped_sol_mint)) /\
    (is_ata k = true -> a_data (l' k) = a_data (l k) /\ a_owner (l' k) = a_owner (l k)).

(** What a transfer hook can do while token-wrap and Token-2022 are on the call stack: call SPL
    Token, the associated-token program (for SPL Token) and every other program. *)
Inductive foreign_steps : ledger -> ledger -> Prop :=
| fs_none l : foreign_steps l l
| fs_spl e cpi ms ix l l1 l2 :
    no_tw_signer ms -> tok_exec e spl_token_id cpi ms ix l = Ok l1 -> foreign_steps l1 l2 -> foreign_steps l l2
| fs_ata e wallet mnt l l1 l2 :
    ata_create e spl_token_id wallet mnt l = Ok l1 -> foreign_steps l1 l2 -> foreign_steps l l2
| fs_world l l1 l2 : world_change l l1 -> foreign_steps l1 l2 -> foreign_steps l l2.

(** An environment of the same chain as [e0]: addresses hash alike, and hooks are programs. *)
Definition lawful (e0 e : env) : Prop :=
  same_curve e0 e /\
  forall p ms n l l', e_hook e p ms n l = Ok l' -> foreign_steps l (confine ms (hook_may l) l l').

(** ** Steps *)
Inductive action :=
| ATokenWrap (e : env) (accounts : list info) (input : list N)   (* an instruction of token-wrap *)
| ATokenProgram (e : env) (p : pubkey) (cpi : bool) (accounts : list info) (ix : tok_ix)
                                                                  (* SPL Token / Token-2022 used directly or by any program *)
| AAssociated (e : env) (p wallet mnt : pubkey)                   (* creation of an associated token account *)
| AWorld.                                                         (* anything else *)
Inductive step (e0 : env) : action -> ledger -> ledger -> Prop :=
| st_token_wrap e accounts input l l' :
    lawful e0 e -> no_tw_signer accounts -> runs e accounts input l l' ->
    step e0 (ATokenWrap e accounts input) l l'
| st_token_program e p cpi accounts ix l l' :
    lawful e0 e -> spl_or_t22 p -> no_tw_signer accounts -> tok_exec e p cpi accounts ix l = Ok l' ->
    step e0 (ATokenProgram e p cpi accounts ix) l l'
| st_associated e p wallet mnt l l' :
    lawful e0 e -> spl_or_t22 p -> ata_create e p wallet mnt l = Ok l' -> step e0 (AAssociated e p wallet mnt) l l'
| st_world l l' : world_change l l' -> step e0 AWorld l l'.

(** Before anything happened: no token accounts, no mints but wrapped SOL, nothing of token-wrap or
    at associated token addresses. *)
Definition genesis (l : ledger) : Prop :=
  a_owner (l native_mint_id) = spl_token_id /\ a_data (l native_mint_id) = DMint wrapped_sol_mint /\
  (unallocated l native_mint_2022_id \/
   (a_owner (l native_mint_2022_id) = t22_id /\ a_data (l native_mint_2022_id) = DMint wrapped_sol_mint)) /\
  (forall k, ~ native_mint k -> ~ ruled (a_owner (l k))) /\
  (forall k, is_tw_pda k = true \/ is_ata k = true -> unallocated l k).

(** [history e0 past l]: [l] is reached from a genesis state through the states [past] (newest
    first). *)
Inductive history (e0 : env) : list ledger -> ledger -> Prop :=
| h_genesis l : genesis l -> history e0 [] l
| h_step past l a l' : history e0 past l -> step e0 a l l' -> history e0 (l :: past) l'.
Definition reachable (e0 : env) (l : ledger) : Prop := exists past, history e0 past l.

(** ** Mints without a permanent delegate, now and ever before *)
Definition no_permanent_delegate (u : pubkey) (l : ledger) : Prop :=
  forall m, mint_account l u t22_id m -> ext_permanent_delegate m = None.
(** Mints that nobody could close: no MintCloseAuthority (SPL Token mints can never be closed). *)
Definition uncloseable (u : pubkey) (l : ledger) : Prop :=
  forall m, mint_account l u t22_id m -> ext_close_authority m = None.
Definition ever (P : ledger -> Prop) (past : list ledger) (l : ledger) : Prop := forall x, In x (l :: past) -> P x.

(** ** Escrowed tokens: what a genuine escrow account holds (token account of program [utp] for
    mint [u], owned by the wrapped mint's authority). *)
Definition escrowed (e0 : env) (l : ledger) (u utp wtp : pubkey) : N :=
  let k := escrow_of e0 u utp wtp in
  match a_data (l k) with
  | DTok t => if pk_eqb (a_owner (l k)) utp && pk_eqb (t_mint t) u
                 && pk_eqb (t_owner t) (authority_of e0 (wrapped_mint_of e0 u wtp))
              then t_amount t else 0
  | _ => 0
  end.

(** ** Actions of interest.  An Unwrap / a Wrap of the pair (unwrapped mint [u] of program [utp],
    wrapped by program [wtp]); a SetCanonicalPointer for mint [u], signed by its mint authority. *)
Definition is_unwrap (e0 : env) (a : action) (u wtp utp : pubkey) (n : N) : Prop :=
  exists e accounts input recipient source authority, a = ATokenWrap e accounts input /\ unpack input = Ok (Unwrap n) /\
    keys_are accounts [escrow_of e0 u utp wtp; recipient; authority_of e0 (wrapped_mint_of e0 u wtp); u; wtp; utp; source;
                       wrapped_mint_of e0 u wtp; authority].
Definition is_wrap (e0 : env) (a : action) (u wtp utp : pubkey) (n : N) : Prop :=
  exists e accounts input recipient source authority, a = ATokenWrap e accounts input /\ unpack input = Ok (Wrap n) /\
    keys_are accounts [recipient; wrapped_mint_of e0 u wtp; authority_of e0 (wrapped_mint_of e0 u wtp); utp; wtp; source; u;
                       escrow_of e0 u utp wtp; authority].
Definition sets_pointer (e0 : env) (a : action) (l : ledger) (u v : pubkey) : Prop :=
  exists e accounts input bs authority x m, a = ATokenWrap e accounts input /\ unpack input = Ok (SetCanonicalPointer bs) /\
    v = e_key_of_bytes e bs /\ keys_are accounts [authority; canonical_pointer_of e0 u; u; x] /\
    signed accounts authority /\ spl_or_t22 (a_owner (l u)) /\ mint_data l u m /\ m_auth m = Some authority.

(** ** Redeeming wrapped tokens *)

(** The owner of a token account acts: its key has signed, or it is a multisig account of the token
    program and [signers], all of which have signed, include enough of its members. *)
Definition owner_acts (accounts : list info) (l : ledger) (p owner : pubkey) (signers : list pubkey) : Prop :=
  (signers = [] /\ signed accounts owner /\ forall m, a_data (l owner) = DMultisig m -> a_owner (l owner) <> p) \/
  (signers <> [] /\ (forall k, In k signers -> signed accounts k) /\
   exists m, a_owner (l owner) = p /\ a_data (l owner) = DMultisig m /\
     ms_m m <= N.of_nat (length (filter (fun k => pk_mem k signers) (ms_signers m)))).
(** The token library's transfer helper appends to its instruction (apart from what a transfer hook asks for) only
    accounts that have signed, as members of a multisig: none when the authority is not a multisig, or all that signed. *)
Definition appends_signers (e : env) (accounts : list info) : Prop :=
  forall l1, exists ks, e_extra e l1 accounts (skipn 9 accounts) = Ok (map (fun k => meta_r k true) ks) /\ forall k, In k ks -> signed accounts k.
(** What one address holds of mint [w] (of program [p]), and what several hold together. *)
Definition holds (l : ledger) (p w k : pubkey) : N :=
  match a_data (l k) with
  | DTok t => if pk_eqb (a_owner (l k)) p && pk_eqb (t_mint t) w then t_amount t else 0
  | _ => 0
  end.
Definition hold_together (l : ledger) (p w : pubkey) (ks : list pubkey) : N := fold_right (fun k acc => holds l p w k + acc) 0 ks.

(** A holder: an account of the wrapped mint [w], owned by [owner] (not delegated to the owner
    itself), neither frozen nor under CPI guard. *)
Definition holder (l : ledger) (p w source owner : pubkey) (t : tokacc) : Prop :=
  token_account l source p t /\ t_mint t = w /\ t_owner t = owner /\ t_state t = Initialized /\
  t_delegate t <> Some owner /\ cpi_guard_locked t = false.
(** The unwrapped mint can be transferred: not paused, no transfer hook (whose decisions are its
    own). *)
Definition transferable (l : ledger) (p u : pubkey) (m : mint) : Prop :=
  mint_account l u p m /\ ext_paused m = false /\ ext_hook m = None.
(** The recipient can receive: an account of the unwrapped mint, not frozen, its demand for a memo
    met, able to withhold fees if the mint charges any. *)
Definition can_receive (e : env) (l : ledger) (p u recipient : pubkey) (m : mint) (t : tokacc) : Prop :=
  token_account l recipient p t /\ t_mint t = u /\ t_state t = Initialized /\
  (memo_required t = true -> e_memo e = true) /\
  (ext_fee m <> None -> In XtTransferFeeAmount (map acct_ext_type_of (t_exts t))).
(** A token account that is open for outgoing transfers: not frozen, not marked non-transferable. *)
Definition open_account (l : ledger) (k : pubkey) : Prop :=
  forall t, a_data (l k) = DTok t -> t_state t = Initialized /\ ~ In XtNonTransferableAccount (map acct_ext_type_of (t_exts t)).
