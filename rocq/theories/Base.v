(** * Base.v — pubkeys, errors, results, ledger.

    Foundations shared by every part of the model.  Each definition cites the
    code in /repo it stands for; definitions that model the Solana runtime or an
    external crate say so. *)
From Coq Require Export String Ascii NArith ZArith Lia Bool Permutation.
From Coq Require Export List.
Export ListNotations.
#[global] Open Scope N_scope.
#[global] Open Scope bool_scope.
#[global] Open Scope list_scope.

(** ** Pubkeys

    [solana_pubkey::Pubkey] (external crate).  A key is either an opaque 32-byte
    value [PkRaw n] or the ideal hash of a seed list under a program
    ([Pubkey::create_program_address]).  A seed list is the *concatenation* of the
    seeds, as in the real preimage: plain bytes ([inl b]) and embedded 32-byte keys
    ([inr k]).  SIMPLIFICATION: hashing is injective and derived keys are never
    equal to raw keys.  PdaBytes.v shows at byte level that the preimages used by
    token-wrap are distinct, so this only excludes SHA-256 collisions. *)
Inductive pubkey : Type :=
| PkRaw (n : N)
| PkDerived (pre : list (N + pubkey)) (prog : pubkey).

Definition atom : Type := (N + pubkey)%type.

Definition atom_all (P : pubkey -> Prop) (a : atom) : Prop :=
  match a with inl _ => True | inr k => P k end.

(** Induction principle through the nested list. *)
Definition pubkey_nested_ind (P : pubkey -> Prop)
    (Hraw : forall n, P (PkRaw n))
    (Hder : forall pre prog, Forall (atom_all P) pre -> P prog -> P (PkDerived pre prog)) :
  forall k, P k :=
  fix F (k : pubkey) : P k :=
    match k with
    | PkRaw n => Hraw n
    | PkDerived pre prog =>
        Hder pre prog
          ((fix go (l : list atom) : Forall (atom_all P) l :=
              match l with
              | [] => @Forall_nil atom (atom_all P)
              | a :: r =>
                  @Forall_cons atom (atom_all P) a r
                    (match a return atom_all P a with inl _ => I | inr k' => F k' end) (go r)
              end) pre)
          (F prog)
    end.

(** Key equality ([PartialEq for Pubkey]). *)
Fixpoint pk_eqb (a b : pubkey) {struct a} : bool :=
  match a, b with
  | PkRaw n, PkRaw m => N.eqb n m
  | PkDerived p x, PkDerived q y =>
      (fix go (l1 l2 : list (N + pubkey)) {struct l1} : bool :=
         match l1, l2 with
         | [], [] => true
         | inl n :: r1, inl m :: r2 => N.eqb n m && go r1 r2
         | inr j :: r1, inr k :: r2 => pk_eqb j k && go r1 r2
         | _, _ => false
         end) p q && pk_eqb x y
  | _, _ => false
  end.

Lemma pk_eqb_eq : forall a b, pk_eqb a b = true <-> a = b.
Proof.
  induction a as [n|pre prog Hpre IHprog] using pubkey_nested_ind; intros [m|q y]; simpl;
    try (split; intro H; discriminate).
  - rewrite N.eqb_eq; split; congruence.
  - rewrite andb_true_iff, IHprog.
    match goal with |- context [?f pre q] => set (go := f) end.
    assert (Hgo : forall q, go pre q = true <-> pre = q).
    { clear -Hpre. induction pre as [|a r IH]; intros [|b q]; simpl;
        try (split; intro H; discriminate); [tauto| |].
      - split; [destruct a as [|]; discriminate|discriminate].
      - inversion Hpre as [|? ? Ha Hr]; subst. specialize (IH Hr).
        destruct a as [n|j], b as [m|k]; try (split; intro H; discriminate);
          fold go; rewrite andb_true_iff, IH.
        + rewrite N.eqb_eq; split; [intros [-> ->]; reflexivity | intro E; inversion E; auto].
        + rewrite (Ha k); split; [intros [-> ->]; reflexivity | intro E; inversion E; auto]. }
    rewrite Hgo. split; [intros [-> ->]; reflexivity | intro E; inversion E; auto].
Qed.

Lemma pk_eqb_refl a : pk_eqb a a = true.
Proof. apply pk_eqb_eq; reflexivity. Qed.
Lemma pk_eqb_neq a b : pk_eqb a b = false <-> a <> b.
Proof.
  split.
  - intros H E; subst; rewrite pk_eqb_refl in H; discriminate.
  - intro H; destruct (pk_eqb a b) eqn:E; [apply pk_eqb_eq in E; contradiction|reflexivity].
Qed.
Lemma pk_eqb_sym a b : pk_eqb a b = pk_eqb b a.
Proof.
  destruct (pk_eqb a b) eqn:E, (pk_eqb b a) eqn:F; auto.
  - apply pk_eqb_eq in E; subst; rewrite pk_eqb_refl in F; discriminate.
  - apply pk_eqb_eq in F; subst; rewrite pk_eqb_refl in E; discriminate.
Qed.
Definition pk_dec (a b : pubkey) : {a = b} + {a <> b}.
Proof.
  destruct (pk_eqb a b) eqn:E; [left; apply pk_eqb_eq, E | right; apply pk_eqb_neq, E].
Defined.

Definition opk_eqb (a b : option pubkey) : bool :=
  match a, b with
  | Some x, Some y => pk_eqb x y
  | None, None => true
  | _, _ => false
  end.

Definition pk_mem (k : pubkey) (l : list pubkey) : bool := existsb (pk_eqb k) l.
Lemma pk_mem_In k l : pk_mem k l = true <-> In k l.
Proof.
  unfold pk_mem; rewrite existsb_exists; split.
  - intros [x [H1 H2]]; apply pk_eqb_eq in H2; subst; exact H1.
  - intro H; exists k; split; [exact H|apply pk_eqb_refl].
Qed.

(** ** Well-known program ids.  Only their being pairwise distinct matters; the
    system program and the default key really are 32 zero bytes. *)
Definition system_id : pubkey := PkRaw 0.      (* solana_system_interface::program::id() *)
Definition tw_id : pubkey := PkRaw 1.          (* lib.rs: declare_id! *)
Definition spl_token_id : pubkey := PkRaw 2.   (* spl_token::id() *)
Definition t22_id : pubkey := PkRaw 3.         (* spl_token_2022_interface::id() *)
Definition ata_id : pubkey := PkRaw 4.         (* spl_associated_token_account_interface::program::id() *)
Definition mpl_id : pubkey := PkRaw 5.         (* mpl_token_metadata::ID *)
Definition rent_sysvar_id : pubkey := PkRaw 6. (* solana_sysvar::rent::id() *)
Definition incinerator_id : pubkey := PkRaw 7. (* solana_sdk_ids::incinerator *)
Definition native_mint_id : pubkey := PkRaw 8. (* spl_token::native_mint::id() *)
Definition native_mint_2022_id : pubkey := PkRaw 9. (* spl_token_2022_interface::native_mint::id() *)

(** ** Errors *)

(** error.rs:14-70, in declaration order. *)
Inductive tw_error :=
| WrappedMintMismatch | BackpointerMismatch | ZeroWrapAmount | MintAuthorityMismatch
| EscrowOwnerMismatch | InvalidWrappedMintOwner | InvalidBackpointerOwner | EscrowMismatch
| EscrowInGoodState | UnwrappedMintHasNoMetadata | MetaplexMetadataMismatch
| MetadataPointerMissing | MetadataPointerUnset | MetadataPointerMismatch
| ExternalProgramReturnedNoData | NoSyncingToToken2022.

(** Errors raised inside the token programs (external crates).  In reality these are
    [ProgramError::Custom] codes too; kept symbolic. *)
Inductive tok_error :=
| NotRentExempt | InsufficientFunds | InvalidMint | MintMismatch | OwnerMismatch | FixedSupply
| AlreadyInUse | NonNativeNotSupported | NonNativeHasBalance | InvalidInstruction
| InvalidState | Overflow | AuthorityTypeNotSupported | MintCannotFreeze | AccountFrozen
| MintDecimalsMismatch | FeeMismatch | MintHasSupply | ExtensionNotFound | ExtensionAlreadyInitialized
| NonTransferable | NonTransferableNeedsImmutableOwner | CpiGuardBlocked | MintPaused | NoMemo
| AccountHasWithheldTransferFees | ImmutableOwnerErr | NoAuthorityExists | ConfidentialBlocked
| IncorrectMintAuthority | IncorrectUpdateAuthority | KeyNotFound | InvalidExtensionCombination.

(** Runtime errors. *)
Inductive rt_error :=
| MissingAccount | PrivilegeEscalation | ReadonlyDataModified | ReadonlyLamportChange
| ExternalAccountDataModified | ExternalAccountLamportSpend | ModifiedProgramId
| InsufficientLamports | AccountAlreadyInUse | InvalidAccountDataLength | UnsupportedProgramId | UnbalancedInstruction.

(** [ProgramError] (external crate), runtime errors and panics. *)
Inductive error :=
| ECustom (code : N)
| EInvalidArgument | EInvalidInstructionData | EInvalidAccountData
| EAccountAlreadyInitialized | EUninitializedAccount | ENotEnoughAccountKeys
| EMissingRequiredSignature | EInvalidAccountOwner | EIncorrectProgramId
| EArithmeticOverflow | EAccountNotRentExempt | EIncorrectAuthority
| EAccountBorrowFailed | EInvalidSeeds | EInvalidRealloc
| ETok (e : tok_error) | ERt (e : rt_error)
| EMpl (code : N) | EExternal (code : N)
| EPanic.

(** ** Results.  [Result<_, ProgramError>] with panics as [Err EPanic]. *)
Inductive res (A : Type) :=
| Ok (a : A)
| Err (e : error).
Arguments Ok {A} _.
Arguments Err {A} _.

Definition bind {A B} (x : res A) (f : A -> res B) : res B :=
  match x with Ok a => f a | Err e => Err e end.
Definition guard (b : bool) (e : error) : res unit := if b then Ok tt else Err e.
Definition of_option {A} (o : option A) (e : error) : res A :=
  match o with Some a => Ok a | None => Err e end.

Notation "x <- e ;; k" := (bind e (fun x => k)) (at level 61, e at next level, right associativity).
Notation "' p <- e ;; k" := (bind e (fun p => k)) (at level 61, p pattern, e at next level, right associativity).
Notation "e ;; k" := (bind e (fun _ => k)) (at level 61, right associativity).

Lemma bind_ok {A B} (x : res A) (f : A -> res B) b :
  bind x f = Ok b -> exists a, x = Ok a /\ f a = Ok b.
Proof. destruct x as [a|e]; simpl; [intro H; exists a; auto|discriminate]. Qed.
Lemma guard_ok b e u : guard b e = Ok u -> b = true.
Proof. destruct b; simpl; [auto|discriminate]. Qed.
Lemma of_option_ok {A} (o : option A) e a : of_option o e = Ok a -> o = Some a.
Proof. destruct o; simpl; congruence. Qed.

(** ** AccountInfo / AccountMeta privileges.
    [solana_account_info::AccountInfo] carries key, is_signer, is_writable; lamports,
    data and owner are read from the current ledger (duplicated accounts share them). *)
Record info := mkInfo { i_key : pubkey; i_signer : bool; i_writable : bool }.

Definition is_sig (ms : list info) (k : pubkey) : bool :=
  existsb (fun m => pk_eqb (i_key m) k && i_signer m) ms.
Definition is_wr (ms : list info) (k : pubkey) : bool :=
  existsb (fun m => pk_eqb (i_key m) k && i_writable m) ms.
Definition has_key (ms : list info) (k : pubkey) : bool :=
  existsb (fun m => pk_eqb (i_key m) k) ms.

Lemma is_sig_In ms k : is_sig ms k = true <-> exists m, In m ms /\ i_key m = k /\ i_signer m = true.
Proof.
  unfold is_sig; rewrite existsb_exists; split; intros [m H]; exists m.
  - destruct H as [H1 H2]; apply andb_true_iff in H2; rewrite pk_eqb_eq in H2; tauto.
  - rewrite andb_true_iff, pk_eqb_eq; tauto.
Qed.
Lemma is_wr_In ms k : is_wr ms k = true <-> exists m, In m ms /\ i_key m = k /\ i_writable m = true.
Proof.
  unfold is_wr; rewrite existsb_exists; split; intros [m H]; exists m.
  - destruct H as [H1 H2]; apply andb_true_iff in H2; rewrite pk_eqb_eq in H2; tauto.
  - rewrite andb_true_iff, pk_eqb_eq; tauto.
Qed.
Lemma has_key_In ms k : has_key ms k = true <-> exists m, In m ms /\ i_key m = k.
Proof.
  unfold has_key; rewrite existsb_exists; split; intros [m H]; exists m; rewrite pk_eqb_eq in *; tauto.
Qed.

Definition two64 : N := 18446744073709551616.
Definition u64_ok (n : N) : bool := n <? two64.
