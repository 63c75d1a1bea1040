(** * LocalSpec.v — the vocabulary of C64: which accounts an instruction can see. *)
From Verif Require Import Base Codec State Pda TokenProg Cpi Ata Processor Spec HistorySpec.

(** Two ledgers hold the same accounts at the addresses [ks]. *)
Definition agree (ks : list pubkey) (l1 l2 : ledger) : Prop := forall k, In k ks -> l1 k = l2 k.
(** Two runs end alike as far as [ks] can tell: the same error, or the same accounts. *)
Definition alike (ks : list pubkey) (r1 r2 : res ledger) : Prop :=
  match r1, r2 with
  | Ok l1, Ok l2 => agree ks l1 l2
  | Err a, Err b => a = b
  | _, _ => False
  end.
Definition keys (accounts : list info) : list pubkey := map i_key accounts.

(** Foreign code is subject to the same rule of the runtime: a program sees only the accounts passed
    to it.  (Transfer hooks, programs called through unknown program ids, and the two helpers that
    select further accounts of a transfer.) *)
Definition sees_its_accounts (e : env) : Prop :=
  (forall p ms n l1 l2, agree (keys ms) l1 l2 -> alike (keys ms) (e_hook e p ms n l1) (e_hook e p ms n l2)) /\
  (forall p ms l1 l2, agree (keys ms) l1 l2 -> alike (keys ms) (e_external e p l1 ms) (e_external e p l2 ms)) /\
  (forall infos more l1 l2, agree (keys infos) l1 l2 -> e_extra e l1 infos more = e_extra e l2 infos more) /\
  (forall k more l1 l2, agree (k :: keys more) l1 l2 -> e_multisig e l1 k more = e_multisig e l2 k more).

(** ** Schedules.  A request for one of the programs involved, the accounts it names, and those it
    may write. *)
Inductive request :=
| RTokenWrap (e : env) (accounts : list info) (input : list N)
| RTokenProgram (e : env) (p : pubkey) (cpi : bool) (accounts : list info) (ix : tok_ix)
| RAssociated (e : env) (p wallet mnt : pubkey).
Definition perform (r : request) (l : ledger) : res ledger :=
  match r with
  | RTokenWrap e accounts input => process_instruction e (mkCtx tw_id accounts) input l
  | RTokenProgram e p cpi accounts ix => tok_exec e p cpi accounts ix l
  | RAssociated e p wallet mnt => ata_create e p wallet mnt l
  end.
Definition names (r : request) : list pubkey :=
  match r with
  | RTokenWrap _ accounts _ | RTokenProgram _ _ _ accounts _ => keys accounts
  | RAssociated e p wallet mnt => [ata_of e wallet mnt p; mnt]
  end.
Definition may_write (r : request) (k : pubkey) : Prop :=
  match r with
  | RTokenWrap _ accounts _ | RTokenProgram _ _ _ accounts _ => writable accounts k
  | RAssociated e p wallet mnt => k = ata_of e wallet mnt p
  end.
Definition well_behaved (r : request) : Prop :=
  match r with RTokenWrap e _ _ | RTokenProgram e _ _ _ _ | RAssociated e _ _ _ => sees_its_accounts e end.

(** The ledger afterwards: a failed request leaves everything as it was. *)
Definition committed (r : request) (l : ledger) : ledger := match perform r l with Ok l' => l' | Err _ => l end.
(** [None]: success. *)
Definition verdict (r : request) (l : ledger) : option error := match perform r l with Ok _ => None | Err err => Some err end.
Fixpoint committed_all (rs : list request) (l : ledger) : ledger :=
  match rs with [] => l | r :: rest => committed_all rest (committed r l) end.

(** No account one of them may write is even named by the other. *)
Definition independent (r s : request) : Prop :=
  forall k, (may_write r k -> ~ In k (names s)) /\ (may_write s k -> ~ In k (names r)).

(** Any number of steps by anybody, none of which may write an account of [ks]. *)
Definition spares (ks : list pubkey) (a : action) (l l' : ledger) : Prop :=
  match a with
  | ATokenWrap _ accounts _ | ATokenProgram _ _ _ accounts _ => forall k, In k ks -> ~ writable accounts k
  | AAssociated e p wallet mnt => ~ In (ata_of e wallet mnt p) ks
  | AWorld => agree ks l l'
  end.
Inductive meanwhile (e0 : env) (ks : list pubkey) : ledger -> ledger -> Prop :=
| mw_none l : meanwhile e0 ks l l
| mw_step a l l1 l2 : meanwhile e0 ks l l1 -> step e0 a l1 l2 -> spares ks a l1 l2 -> meanwhile e0 ks l l2.
