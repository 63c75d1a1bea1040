(** * PropErrors.v — C56: what is wrong is what is reported.

    Each instruction checks its accounts before it does anything; the first requirement that is not met decides the error. *)
From Verif Require Import Base Codec CodecProofs State Pda TokenProg Cpi Meta Processor Builders Tac PdaProofs TokProofs ProcProofs Spec SpecLemmas CloseProofs CreateProofs CreateSpec SyncSpec PropCreate CliCreate Demo Demo2.

(** ** Specification *)
(** Requirements, in order, each with the error that answers its violation. *)
Definition first_wrong (requirements : list (Prop * error)) (err : error) : Prop :=
  exists before p after, requirements = before ++ (p, err) :: after /\ (forall q, In q before -> fst q) /\ ~ p.
Definition blank (l : ledger) (k : pubkey) (size : N) : Prop :=
  exists bs, a_data (l k) = DRaw bs /\ (forall b, In b bs -> b = 0) /\ size <= N.of_nat (length bs).
(** An account big enough for a token account (mint), but not initialised. *)
Definition uninitialised_token (l : ledger) (k : pubkey) : Prop := (exists t, a_data (l k) = DTok t /\ t_state t = Uninitialized) \/ blank l k 165.
Definition uninitialised_mint (l : ledger) (k : pubkey) : Prop := (exists m, a_data (l k) = DMint m /\ m_init m = false) \/ blank l k 82.
Definition holds_token (l : ledger) (k : pubkey) : Prop := exists t, a_data (l k) = DTok t.
Definition holds_mint (l : ledger) (k : pubkey) : Prop := exists m, a_data (l k) = DMint m.
Definition token_shows (l : ledger) (k : pubkey) (f : tokacc -> Prop) : Prop := forall t, a_data (l k) = DTok t -> f t.
Definition mint_shows (l : ledger) (k : pubkey) (f : mint -> Prop) : Prop := forall m, a_data (l k) = DMint m -> f m.
(** All addresses the program derives can be derived. *)
Definition all_derivable (e : env) (u p w a utp : pubkey) : Prop :=
  derivable e (wrapped_mint_seeds u p) tw_id /\ derivable e (wrapped_mint_authority_seeds w) tw_id /\ derivable e (backpointer_seeds w) tw_id /\
  derivable e (ata_seeds a u utp) ata_id /\ derivable e (metaplex_seeds w) mpl_id /\ derivable e (canonical_pointer_seeds u) tw_id.

Definition wrap_requires (e : env) (l : ledger) (n : N) (w a utp wtp u esc : pubkey) : list (Prop * error) :=
  [ (0 < n, ETw ZeroWrapAmount);
    (w = wrapped_mint_of e u wtp, ETw WrappedMintMismatch);
    (a = authority_of e w, ETw MintAuthorityMismatch);
    (esc = ata_of e a u utp, ETw EscrowMismatch);
    (~ uninitialised_token l esc, EUninitializedAccount);
    (holds_token l esc, EInvalidAccountData);
    (token_shows l esc (fun t => t_owner t = a), ETw EscrowOwnerMismatch);
    (~ uninitialised_mint l u, EUninitializedAccount);
    (holds_mint l u, EInvalidAccountData) ].
Definition unwrap_requires (e : env) (n : N) (w a utp wtp u esc : pubkey) : list (Prop * error) :=
  [ (0 < n, ETw ZeroWrapAmount);
    (w = wrapped_mint_of e u wtp, ETw WrappedMintMismatch);
    (a = authority_of e w, ETw MintAuthorityMismatch);
    (esc = ata_of e a u utp, ETw EscrowMismatch) ].
Definition create_requires (e : env) (l : ledger) (w b u p : pubkey) : list (Prop * error) :=
  [ (w = wrapped_mint_of e u p, ETw WrappedMintMismatch);
    (b = backpointer_of e w, ETw BackpointerMismatch);
    (spl_or_t22 (a_owner (l u)), EInvalidAccountOwner) ].
Definition close_requires (e : env) (l : ledger) (esc u w a : pubkey) : list (Prop * error) :=
  [ (a_owner (l esc) = t22_id /\ a_owner (l u) = t22_id, EIncorrectProgramId);
    (w = wrapped_mint_of e u (a_owner (l w)), ETw WrappedMintMismatch);
    (a = authority_of e w, ETw MintAuthorityMismatch);
    (esc = ata_of e a u t22_id, ETw EscrowMismatch);
    (~ uninitialised_token l esc, EUninitializedAccount);
    (holds_token l esc, EInvalidAccountData);
    (token_shows l esc (fun t => t_owner t = a), ETw EscrowOwnerMismatch);
    (token_shows l esc (fun t => t_amount t = 0), EInvalidAccountData);
    (token_shows l esc (fun t => t_state t = Initialized), EInvalidAccountData);
    (~ uninitialised_mint l u, EUninitializedAccount);
    (holds_mint l u, EInvalidAccountData) ].
Definition sync_t22_requires (e : env) (l : ledger) (w a u p : pubkey) : list (Prop * error) :=
  [ (p = t22_id, EIncorrectProgramId);
    (a_owner (l w) = t22_id, EIncorrectProgramId);
    (w = wrapped_mint_of e u t22_id, ETw WrappedMintMismatch);
    (a = authority_of e w, ETw MintAuthorityMismatch) ].
Definition sync_spl_requires (e : env) (l : ledger) (md a w u x : pubkey) : list (Prop * error) :=
  [ (a_owner (l w) = spl_token_id, ETw NoSyncingToToken2022);
    (w = wrapped_mint_of e u spl_token_id, ETw WrappedMintMismatch);
    (a = authority_of e w, ETw MintAuthorityMismatch);
    (md = metaplex_of e w, ETw MetaplexMetadataMismatch);
    (x = mpl_id, EIncorrectProgramId) ].
Definition pointer_requires (e : env) (l : ledger) (signs : Prop) (a p u : pubkey) : list (Prop * error) :=
  [ (signs, EMissingRequiredSignature);
    (spl_or_t22 (a_owner (l u)), EInvalidAccountOwner);
    (~ uninitialised_mint l u, EUninitializedAccount);
    (holds_mint l u, EInvalidAccountData);
    (mint_shows l u (fun m => m_auth m <> None), EInvalidAccountData);
    (mint_shows l u (fun m => m_auth m = Some a), EIncorrectAuthority);
    (p = canonical_pointer_of e u, EInvalidArgument);
    (no_data l p -> e_rent e 32 <= lamports l p, EAccountNotRentExempt) ].

(** How many accounts each instruction needs. *)
Definition needs_accounts {K} (ix : tw_instr K) : nat :=
  match ix with CreateMint _ => 5 | Wrap _ | Unwrap _ => 9 | CloseStuckEscrow => 6 | SyncMetadataToToken2022 => 4 | SyncMetadataToSplToken => 7 | SetCanonicalPointer _ => 4 end.
Definition moves_nothing {K} (ix : tw_instr K) : Prop := ix = Wrap 0 \/ ix = Unwrap 0.

(** ** Proofs *)
Lemma first_cons p x r err : first_wrong ((p, x) :: r) err -> (~ p /\ err = x) \/ (p /\ first_wrong r err).
Proof.
  intros (before & q & after & E & B & N). destruct before as [|y bs]; cbn [app] in E; injection E as E1 E2.
  - left. subst. auto.
  - right. subst y. split; [exact (B _ (or_introl eq_refl))|]. exists bs, q, after. split; [exact E2|]. split; [|exact N]. intros z Hz. apply B. right. exact Hz.
Qed.
Lemma first_nil err : ~ first_wrong [] err.
Proof. intros (before & q & after & E & _). destruct before; discriminate E. Qed.
Lemma guard_no {A} b x (k : unit -> res A) : b = false -> bind (guard b x) k = Err x.
Proof. intros ->. reflexivity. Qed.
Lemma pk_neq_no a b : a <> b -> pk_eqb a b = false. Proof. apply pk_eqb_neq. Qed.
Lemma zeros_all bs : (forall b, In b bs -> b = 0) <-> all_zero bs = true.
Proof. unfold all_zero. rewrite forallb_forall. split; intros H b Hb; [apply N.eqb_eq; apply H; exact Hb|apply N.eqb_eq; apply H; exact Hb]. Qed.
Lemma unpack_tok_uninit l k : uninitialised_token l k -> pod_unpack_tok (a_data (l k)) = Err EUninitializedAccount.
Proof.
  intros [(t & D & S)|(bs & D & Z & L)]; rewrite D; cbn [pod_unpack_tok].
  - rewrite S. reflexivity.
  - apply zeros_all in Z. rewrite Z. unfold tok_base_len. rewrite (proj2 (N.leb_le _ _) L). reflexivity.
Qed.
Lemma unpack_mint_uninit l k : uninitialised_mint l k -> pod_unpack_mint (a_data (l k)) = Err EUninitializedAccount.
Proof.
  intros [(t & D & S)|(bs & D & Z & L)]; rewrite D; cbn [pod_unpack_mint].
  - rewrite S. reflexivity.
  - apply zeros_all in Z. rewrite Z. unfold mint_base_len. rewrite (proj2 (N.leb_le _ _) L). reflexivity.
Qed.
Lemma unpack_tok_other l k : ~ uninitialised_token l k -> ~ holds_token l k -> pod_unpack_tok (a_data (l k)) = Err EInvalidAccountData.
Proof.
  intros U H. unfold pod_unpack_tok. destruct (a_data (l k)) as [bs|v|m|t|ms|x] eqn:D; try reflexivity.
  - destruct (all_zero bs && (tok_base_len <=? N.of_nat (length bs))) eqn:Z; [|reflexivity]. exfalso. apply U. right. apply andb_true_iff in Z. destruct Z as [Z1 Z2].
    exists bs. split; [exact D|]. split; [apply zeros_all; exact Z1|apply N.leb_le; exact Z2].
  - exfalso. apply H. exists t. exact D.
Qed.
Lemma unpack_mint_other l k : ~ uninitialised_mint l k -> ~ holds_mint l k -> pod_unpack_mint (a_data (l k)) = Err EInvalidAccountData.
Proof.
  intros U H. unfold pod_unpack_mint. destruct (a_data (l k)) as [bs|v|m|t|ms|x] eqn:D; try reflexivity.
  - destruct (all_zero bs && (mint_base_len <=? N.of_nat (length bs))) eqn:Z; [|reflexivity]. exfalso. apply U. right. apply andb_true_iff in Z. destruct Z as [Z1 Z2].
    exists bs. split; [exact D|]. split; [apply zeros_all; exact Z1|apply N.leb_le; exact Z2].
  - exfalso. apply H. exists m. exact D.
Qed.
Lemma unpack_tok_good l k : ~ uninitialised_token l k -> holds_token l k -> exists t, a_data (l k) = DTok t /\ pod_unpack_tok (a_data (l k)) = Ok t.
Proof.
  intros U [t D]. exists t. split; [exact D|]. rewrite D. cbn [pod_unpack_tok]. destruct (acct_state_eqb (t_state t) Uninitialized) eqn:E; [|reflexivity].
  exfalso. apply U. left. exists t. split; [exact D|]. destruct (t_state t); [reflexivity|discriminate E|discriminate E].
Qed.
Lemma unpack_mint_good l k : ~ uninitialised_mint l k -> holds_mint l k -> exists m, a_data (l k) = DMint m /\ pod_unpack_mint (a_data (l k)) = Ok m.
Proof.
  intros U [m D]. exists m. split; [exact D|]. rewrite D. cbn [pod_unpack_mint]. destruct (m_init m) eqn:E; [reflexivity|].
  exfalso. apply U. left. exists m. auto.
Qed.

Lemma expressible_is_wf ix : expressible ix -> instr_wf ix.
Proof. destruct ix; intro H; exact H. Qed.
(** Accounts with the given keys. *)
Lemma keys_cons accounts k ks : keys_are accounts (k :: ks) -> exists i r, accounts = i :: r /\ i_key i = k /\ keys_are r ks.
Proof. intros [more H]. destruct accounts as [|i r]; [discriminate H|]. cbn [map app] in H. injection H as H1 H2. exists i, r. split; [reflexivity|]. split; [exact H1|]. exists more. exact H2. Qed.
Ltac peel H :=
  match type of H with
  | keys_are ?a (?k :: ?ks) => let i := fresh "i" in let r := fresh "r" in let H1 := fresh "K" in
      apply keys_cons in H; destruct H as (i & r & -> & H1 & H); peel H
  | _ => idtac
  end.
Lemma wrap_outcome e accounts n l : n < two64 -> outcome e accounts (Wrap n) l = process_wrap e (mkCtx tw_id accounts) n l.
Proof. intro H. rewrite outcome_instr by exact H. reflexivity. Qed.
Lemma unwrap_outcome e accounts n l : n < two64 -> outcome e accounts (Unwrap n) l = process_unwrap e (mkCtx tw_id accounts) n l.
Proof. intro H. rewrite outcome_instr by exact H. reflexivity. Qed.
Lemma close_outcome' e accounts l : outcome e accounts CloseStuckEscrow l = process_close_stuck_escrow e (mkCtx tw_id accounts) l.
Proof. rewrite outcome_instr by exact I. reflexivity. Qed.
Lemma nz_not n : ~ 0 < n -> negb (n =? 0) = false.
Proof. intro H. destruct n; [reflexivity|lia]. Qed.
Lemma nz_yes n : 0 < n -> negb (n =? 0) = true.
Proof. intro H. destruct n; [lia|reflexivity]. Qed.
Lemma get_am_ok e w : derivable e (wrapped_mint_authority_seeds w) tw_id ->
  get_wrapped_mint_authority_with_seed e w = Ok (authority_of e w, find_bump e (wrapped_mint_authority_seeds w) tw_id).
Proof. intro D. unfold get_wrapped_mint_authority_with_seed, get_wrapped_mint_authority_with_seed_for_program. exact (findable_get _ _ _ D). Qed.
Lemma get_wm_ok e u p : derivable e (wrapped_mint_seeds u p) tw_id ->
  get_wrapped_mint_address_with_seed e u p = Ok (wrapped_mint_of e u p, find_bump e (wrapped_mint_seeds u p) tw_id).
Proof. intro D. unfold get_wrapped_mint_address_with_seed, get_wrapped_mint_address_with_seed_for_program. exact (findable_get _ _ _ D). Qed.
Lemma get_bm_ok e w : derivable e (backpointer_seeds w) tw_id ->
  get_wrapped_mint_backpointer_address_with_seed e w = Ok (backpointer_of e w, find_bump e (backpointer_seeds w) tw_id).
Proof. intro D. unfold get_wrapped_mint_backpointer_address_with_seed, get_wrapped_mint_backpointer_address_with_seed_for_program. exact (findable_get _ _ _ D). Qed.
Lemma get_pp_ok e u : derivable e (canonical_pointer_seeds u) tw_id ->
  get_canonical_pointer_address_with_seed e u = Ok (canonical_pointer_of e u, find_bump e (canonical_pointer_seeds u) tw_id).
Proof. intro D. unfold get_canonical_pointer_address_with_seed. exact (findable_get _ _ _ D). Qed.
Lemma get_mp_ok e w : derivable e (metaplex_seeds w) mpl_id -> metaplex_find_pda e w = Ok (metaplex_of e w, find_bump e (metaplex_seeds w) mpl_id).
Proof. intro D. unfold metaplex_find_pda. exact (findable_get _ _ _ D). Qed.
Lemma guard_yes {A} b x (k : unit -> res A) : b = true -> bind (guard b x) k = k tt.
Proof. intros ->. reflexivity. Qed.
Lemma ok_step {A B} (r : res A) x (k : A -> res B) : r = Ok x -> bind r k = k x.
Proof. intros ->. reflexivity. Qed.
Lemma err_step {A B} (r : res A) x (k : A -> res B) : r = Err x -> bind r k = Err x.
Proof. intros ->. reflexivity. Qed.
Lemma pk_yes a b : a = b -> pk_eqb a b = true. Proof. intros ->. apply pk_eqb_refl. Qed.
Lemma pk_no a b : a <> b -> pk_eqb a b = false. Proof. apply pk_eqb_neq. Qed.
Lemma pk_no' a b : b <> a -> pk_eqb a b = false. Proof. intro H. apply pk_eqb_neq. intro E. apply H. symmetry. exact E. Qed.

(** One requirement decided by a key comparison. *)
Lemma key_req a b x (P : Prop) (k : unit -> res ledger) y : ((a <> b /\ y = x) \/ (a = b /\ P)) ->
  (P -> a = b -> k tt = Err y) -> bind (guard (pk_eqb a b) x) k = Err y.
Proof. intros [[N ->]|[E p]] H; [rewrite guard_no by (apply pk_no; exact N); reflexivity|rewrite guard_yes by (apply pk_yes; exact E); apply H; assumption]. Qed.
Lemma key_req' a b x (P : Prop) (k : unit -> res ledger) y : ((b <> a /\ y = x) \/ (b = a /\ P)) ->
  (P -> a = b -> k tt = Err y) -> bind (guard (pk_eqb a b) x) k = Err y.
Proof. intros [[N ->]|[E p]] H; [rewrite guard_no by (apply pk_no'; exact N); reflexivity|rewrite guard_yes by (apply pk_yes; symmetry; exact E); apply H; [exact p|symmetry; exact E]]. Qed.
(** Reading a token account (mint). *)
Lemma tok_req l k rest (f : tokacc -> res ledger) y :
  first_wrong ((~ uninitialised_token l k, EUninitializedAccount) :: (holds_token l k, EInvalidAccountData) :: rest) y ->
  (forall t, a_data (l k) = DTok t -> first_wrong rest y -> f t = Err y) -> bind (pod_unpack_tok (a_data (l k))) f = Err y.
Proof.
  intros F H. apply first_cons in F. destruct F as [[U ->]|[U F]].
  - apply err_step. destruct (pod_unpack_tok (a_data (l k))) as [t|x] eqn:E.
    + exfalso. apply U. intro U'. rewrite (unpack_tok_uninit _ _ U') in E. discriminate E.
    + unfold pod_unpack_tok in E. destruct (a_data (l k)) as [bs|v|m|t|ms|z] eqn:D; try (exfalso; apply U; intros [(t' & D' & _)|(bs' & D' & _)]; rewrite D in D'; discriminate D').
      * destruct (all_zero bs && (tok_base_len <=? N.of_nat (length bs))) eqn:Z; [symmetry; rewrite <- E; reflexivity|]. exfalso. apply U. intros [(t' & D' & _)|(bs' & D' & Z' & L')]; rewrite D in D'; [discriminate D'|].
        injection D' as <-. apply zeros_all in Z'. rewrite Z' in Z. unfold tok_base_len in Z. rewrite (proj2 (N.leb_le _ _) L') in Z. discriminate Z.
      * destruct (acct_state_eqb (t_state t) Uninitialized) eqn:S; [symmetry; rewrite <- E; reflexivity|discriminate E].
  - apply first_cons in F. destruct F as [[T ->]|[T F]].
    + apply err_step. apply unpack_tok_other; assumption.
    + destruct (unpack_tok_good _ _ U T) as (t & D & E). rewrite (ok_step _ _ _ E). apply H; assumption.
Qed.
Lemma mint_req l k rest (f : mint -> res ledger) y :
  first_wrong ((~ uninitialised_mint l k, EUninitializedAccount) :: (holds_mint l k, EInvalidAccountData) :: rest) y ->
  (forall t, a_data (l k) = DMint t -> first_wrong rest y -> f t = Err y) -> bind (pod_unpack_mint (a_data (l k))) f = Err y.
Proof.
  intros F H. apply first_cons in F. destruct F as [[U ->]|[U F]].
  - apply err_step. destruct (pod_unpack_mint (a_data (l k))) as [t|x] eqn:E.
    + exfalso. apply U. intro U'. rewrite (unpack_mint_uninit _ _ U') in E. discriminate E.
    + unfold pod_unpack_mint in E. destruct (a_data (l k)) as [bs|v|m|t|ms|z] eqn:D; try (exfalso; apply U; intros [(t' & D' & _)|(bs' & D' & _)]; rewrite D in D'; discriminate D').
      * destruct (all_zero bs && (mint_base_len <=? N.of_nat (length bs))) eqn:Z; [symmetry; rewrite <- E; reflexivity|]. exfalso. apply U. intros [(t' & D' & _)|(bs' & D' & Z' & L')]; rewrite D in D'; [discriminate D'|].
        injection D' as <-. apply zeros_all in Z'. rewrite Z' in Z. unfold mint_base_len in Z. rewrite (proj2 (N.leb_le _ _) L') in Z. discriminate Z.
      * destruct (m_init m) eqn:S; [discriminate E|symmetry; rewrite <- E; reflexivity].
  - apply first_cons in F. destruct F as [[T ->]|[T F]].
    + apply err_step. apply unpack_mint_other; assumption.
    + destruct (unpack_mint_good _ _ U T) as (t & D & E). rewrite (ok_step _ _ _ E). apply H; assumption.
Qed.
(** A requirement on what was read. *)
Lemma shows_req l k t (f : tokacc -> Prop) x rest y : a_data (l k) = DTok t -> first_wrong ((token_shows l k f, x) :: rest) y ->
  (~ f t /\ y = x) \/ (f t /\ first_wrong rest y).
Proof.
  intros D F. apply first_cons in F. destruct F as [[N E]|[S F]]; [left|right].
  - split; [|exact E]. intro X. apply N. intros t' D'. rewrite D in D'. injection D' as <-. exact X.
  - split; [exact (S _ D)|exact F].
Qed.
Lemma mshows_req l k t (f : mint -> Prop) x rest y : a_data (l k) = DMint t -> first_wrong ((mint_shows l k f, x) :: rest) y ->
  (~ f t /\ y = x) \/ (f t /\ first_wrong rest y).
Proof.
  intros D F. apply first_cons in F. destruct F as [[N E]|[S F]]; [left|right].
  - split; [|exact E]. intro X. apply N. intros t' D'. rewrite D in D'. injection D' as <-. exact X.
  - split; [exact (S _ D)|exact F].
Qed.

Theorem C56_wrap e accounts l n r w a utp wtp s u esc t err :
  keys_are accounts [r; w; a; utp; wtp; s; u; esc; t] -> n < two64 -> all_derivable e u wtp w a utp ->
  first_wrong (wrap_requires e l n w a utp wtp u esc) err -> fails e accounts (Wrap n) l err.
Proof.
  intros K Hn (D1 & D2 & D3 & D4 & D5 & D6) F. unfold fails. rewrite (wrap_outcome _ _ _ _ Hn). unfold wrap_requires in F.
  peel K. unfold process_wrap. apply first_cons in F. destruct F as [[N ->]|[N F]]; [apply guard_no; apply nz_not; exact N|].
  rewrite (guard_yes _ _ _ (nz_yes _ N)). cbn [c_infos]. cbn zeta. rewrite K1, K2, K3, K4, K6, K7.
  rewrite (ok_step _ _ _ (get_w_ok _ _ _ D1)). apply first_cons in F. apply (key_req' _ _ _ _ _ _ F). clear F. intros F Ew.
  rewrite (ok_step _ _ _ (get_am_ok _ _ D2)). cbn [fst snd]. apply first_cons in F. apply (key_req _ _ _ _ _ _ F). clear F. intros F Ea.
  rewrite (ok_step _ _ _ (get_ata_live _ _ _ _ D4)). apply first_cons in F. apply (key_req _ _ _ _ _ _ F). clear F. intros F Ee.
  apply (tok_req _ _ _ _ _ F). clear F. intros et De F. rewrite <- Ea. apply (shows_req _ _ _ _ _ _ _ De) in F. apply (key_req _ _ _ _ _ _ F). clear F. intros F Eo.
  apply (mint_req _ _ _ _ _ F). intros m _ F'. exfalso. exact (first_nil _ F').
Qed.
Theorem C56_unwrap e accounts l n esc r a u wtp utp s w t err :
  keys_are accounts [esc; r; a; u; wtp; utp; s; w; t] -> n < two64 -> all_derivable e u wtp w a utp ->
  first_wrong (unwrap_requires e n w a utp wtp u esc) err -> fails e accounts (Unwrap n) l err.
Proof.
  intros K Hn (D1 & D2 & D3 & D4 & D5 & D6) F. unfold fails. rewrite (unwrap_outcome _ _ _ _ Hn). unfold unwrap_requires in F.
  peel K. unfold process_unwrap. apply first_cons in F. destruct F as [[N ->]|[N F]]; [apply guard_no; apply nz_not; exact N|].
  rewrite (guard_yes _ _ _ (nz_yes _ N)). cbn [c_infos]. cbn zeta. rewrite K0, K2, K3, K4, K5, K7.
  rewrite (ok_step _ _ _ (get_w_ok _ _ _ D1)). apply first_cons in F. apply (key_req' _ _ _ _ _ _ F). clear F. intros F Ew.
  rewrite (ok_step _ _ _ (get_am_ok _ _ D2)). cbn [fst snd]. apply first_cons in F. apply (key_req _ _ _ _ _ _ F). clear F. intros F Ea.
  rewrite (ok_step _ _ _ (get_ata_live _ _ _ _ D4)). apply first_cons in F. apply (key_req _ _ _ _ _ _ F). clear F. intros F Ee.
  exfalso. exact (first_nil _ F).
Qed.
Lemma owner_req o x (P : Prop) (k : unit -> res ledger) y : ((~ spl_or_t22 o /\ y = x) \/ (spl_or_t22 o /\ P)) ->
  (P -> k tt = Err y) -> bind (guard (pk_eqb o spl_token_id || pk_eqb o t22_id) x) k = Err y.
Proof.
  intros [[N ->]|[E p]] H.
  - apply guard_no. destruct (pk_eqb o spl_token_id) eqn:E1; [apply pk_eqb_eq in E1; exfalso; apply N; left; exact E1|].
    destruct (pk_eqb o t22_id) eqn:E2; [apply pk_eqb_eq in E2; exfalso; apply N; right; exact E2|]. reflexivity.
  - rewrite guard_yes; [exact (H p)|]. destruct E as [-> | ->]; reflexivity.
Qed.
Theorem C56_create e accounts l idem w b u x p err :
  keys_are accounts [w; b; u; x; p] -> all_derivable e u p w (authority_of e w) p ->
  first_wrong (create_requires e l w b u p) err -> fails e accounts (CreateMint idem) l err.
Proof.
  intros K (D1 & D2 & D3 & D4 & D5 & D6) F. unfold fails. rewrite create_outcome. unfold create_requires in F.
  peel K. unfold process_create_mint. cbn [c_infos]. cbn zeta. rewrite K0, K1, K2, K4.
  rewrite (ok_step _ _ _ (get_wm_ok _ _ _ D1)), (ok_step _ _ _ (get_bm_ok _ _ D3)). cbn [fst snd].
  apply first_cons in F. apply (key_req _ _ _ _ _ _ F). clear F. intros F Ew.
  apply first_cons in F. apply (key_req _ _ _ _ _ _ F). clear F. intros F Ea.
  apply first_cons in F. apply (owner_req _ _ _ _ _ F). clear F. intros F. exfalso. exact (first_nil _ F).
Qed.
Theorem C56_close e accounts l esc d u w a p err :
  keys_are accounts [esc; d; u; w; a; p] -> all_derivable e u (a_owner (l w)) w a t22_id ->
  first_wrong (close_requires e l esc u w a) err -> fails e accounts CloseStuckEscrow l err.
Proof.
  intros K (D1 & D2 & D3 & D4 & D5 & D6) F. unfold fails. rewrite close_outcome'. unfold close_requires in F.
  peel K. unfold process_close_stuck_escrow. cbn [c_infos]. cbn zeta. rewrite K0, K2, K3, K4.
  apply first_cons in F. destruct F as [[N ->]|[[O1 O2] F]].
  { apply guard_no. destruct (pk_eqb (a_owner (l esc)) t22_id) eqn:E1; [|reflexivity]. destruct (pk_eqb (a_owner (l u)) t22_id) eqn:E2; [|reflexivity].
    exfalso. apply N. split; apply pk_eqb_eq; assumption. }
  rewrite guard_yes by (rewrite O1, O2; reflexivity). rewrite O2.
  rewrite (ok_step _ _ _ (get_w_ok _ _ _ D1)). apply first_cons in F. apply (key_req _ _ _ _ _ _ F). clear F. intros F Ew.
  rewrite (ok_step _ _ _ (get_am_ok _ _ D2)). cbn [fst snd]. apply first_cons in F. apply (key_req _ _ _ _ _ _ F). clear F. intros F Ea.
  rewrite (ok_step _ _ _ (get_ata_live _ _ _ _ D4)). apply first_cons in F. apply (key_req _ _ _ _ _ _ F). clear F. intros F Ee.
  apply (tok_req _ _ _ _ _ F). clear F. intros et De F. apply (shows_req _ _ _ _ _ _ _ De) in F. apply (key_req _ _ _ _ _ _ F). clear F. intros F Eo.
  apply (shows_req _ _ _ _ _ _ _ De) in F. destruct F as [[N ->]|[A F]]; [apply guard_no; apply N.eqb_neq; exact N|]. rewrite guard_yes by (apply N.eqb_eq; exact A).
  apply (shows_req _ _ _ _ _ _ _ De) in F. destruct F as [[N ->]|[B F]]; [apply guard_no; destruct (t_state et); [reflexivity|exfalso; apply N; reflexivity|reflexivity]|]. rewrite guard_yes by (rewrite B; reflexivity).
  apply (mint_req _ _ _ _ _ F). intros m _ F'. exfalso. exact (first_nil _ F').
Qed.
Theorem C56_sync_t22 e accounts l w a u p err :
  keys_are accounts [w; a; u; p] -> all_derivable e u t22_id w a t22_id ->
  first_wrong (sync_t22_requires e l w a u p) err -> fails e accounts SyncMetadataToToken2022 l err.
Proof.
  intros K (D1 & D2 & D3 & D4 & D5 & D6) F. unfold fails. rewrite sync_t22_outcome. unfold sync_t22_requires in F.
  peel K. unfold process_sync_metadata_to_token_2022. cbn [c_infos]. cbn zeta. rewrite K0, K1, K2, K3.
  apply first_cons in F. apply (key_req _ _ _ _ _ _ F). clear F. intros F Ep.
  apply first_cons in F. apply (key_req _ _ _ _ _ _ F). clear F. intros F Eo.
  rewrite (ok_step _ _ _ (get_wm_ok _ _ _ D1)). cbn [fst snd]. apply first_cons in F. apply (key_req _ _ _ _ _ _ F). clear F. intros F Ew.
  rewrite (ok_step _ _ _ (get_am_ok _ _ D2)). cbn [fst snd]. apply first_cons in F. apply (key_req _ _ _ _ _ _ F). clear F. intros F Ea.
  exfalso. exact (first_nil _ F).
Qed.
Theorem C56_sync_spl e accounts l md a w u x y z err :
  keys_are accounts [md; a; w; u; x; y; z] -> all_derivable e u spl_token_id w a spl_token_id ->
  first_wrong (sync_spl_requires e l md a w u x) err -> fails e accounts SyncMetadataToSplToken l err.
Proof.
  intros K (D1 & D2 & D3 & D4 & D5 & D6) F. unfold fails. rewrite sync_spl_outcome. unfold sync_spl_requires in F.
  peel K. unfold process_sync_metadata_to_spl_token. cbn [c_infos]. cbn zeta. rewrite K0, K1, K2, K3, K4.
  apply first_cons in F. apply (key_req _ _ _ _ _ _ F). clear F. intros F Eo.
  rewrite (ok_step _ _ _ (get_wm_ok _ _ _ D1)). cbn [fst snd]. apply first_cons in F. apply (key_req _ _ _ _ _ _ F). clear F. intros F Ew.
  rewrite (ok_step _ _ _ (get_am_ok _ _ D2)). cbn [fst snd]. apply first_cons in F. apply (key_req _ _ _ _ _ _ F). clear F. intros F Ea.
  rewrite (ok_step _ _ _ (get_mp_ok _ _ D5)). cbn [fst snd]. apply first_cons in F. apply (key_req _ _ _ _ _ _ F). clear F. intros F Em.
  apply first_cons in F. apply (key_req _ _ _ _ _ _ F). clear F. intros F Ex. exfalso. exact (first_nil _ F).
Qed.
Theorem C56_pointer e i accounts l k a p u x err :
  keys_are (i :: accounts) [a; p; u; x] -> expressible (SetCanonicalPointer k) -> derivable e (canonical_pointer_seeds u) tw_id ->
  first_wrong (pointer_requires e l (i_signer i = true) a p u) err -> fails e (i :: accounts) (SetCanonicalPointer k) l err.
Proof.
  intros K Hk D F. unfold fails. rewrite outcome_instr by (apply expressible_is_wf; exact Hk). unfold pointer_requires in F. cbn [map_instr process_instr].
  apply keys_cons in K. destruct K as (i' & r & E & K0 & K). injection E as <- <-. peel K. unfold process_set_canonical_pointer. cbn [c_infos]. cbn zeta. rewrite K0, K1, K2.
  apply first_cons in F. destruct F as [[N ->]|[S F]]; [apply guard_no; destruct (i_signer i); [exfalso; apply N; reflexivity|reflexivity]|]. rewrite (guard_yes _ _ _ S).
  apply first_cons in F. apply (owner_req _ _ _ _ _ F). clear F. intros F.
  apply (mint_req _ _ _ _ _ F). clear F. intros m Dm F. apply (mshows_req _ _ _ _ _ _ _ Dm) in F. destruct F as [[N ->]|[A F]].
  { apply err_step. destruct (m_auth m); [exfalso; apply N; discriminate|reflexivity]. }
  destruct (m_auth m) as [ma|] eqn:EA; [|exfalso; apply A; reflexivity]. cbn [of_option bind].
  apply (mshows_req _ _ _ _ _ _ _ Dm) in F. cbv beta in F. rewrite EA in F. destruct F as [[N ->]|[B F]].
  { apply guard_no. apply pk_no. intro X. apply N. rewrite X. reflexivity. }
  injection B as ->. rewrite guard_yes by apply pk_eqb_refl. rewrite (ok_step _ _ _ (get_pp_ok _ _ D)). cbn [fst snd].
  apply first_cons in F. apply (key_req _ _ _ _ _ _ F). clear F. intros F Ep.
  apply first_cons in F. destruct F as [[N ->]|[_ F]]; [|exfalso; exact (first_nil _ F)].
  unfold no_data, lamports in N. destruct (data_is_empty (a_data (l p))) eqn:Em.
  - rewrite (err_step _ EAccountNotRentExempt); [reflexivity|]. apply guard_no. apply N.leb_gt. apply N.nle_gt. intro X. apply N. intros _. exact X.
  - exfalso. apply N. intro Z. unfold data_is_empty in Em. rewrite Z in Em. discriminate Em.
Qed.

(** Too few accounts; nothing to move. *)
Theorem C56_short e accounts ix l : expressible ix -> ~ moves_nothing ix -> (length accounts < needs_accounts ix)%nat ->
  fails e accounts ix l ENotEnoughAccountKeys.
Proof.
  intros H N L. unfold fails. rewrite outcome_instr by (apply expressible_is_wf; exact H).
  assert (Z : forall n, n <> 0 -> negb (n =? 0) = true) by (intros [|n] X; [exfalso; apply X; reflexivity|reflexivity]).
  destruct ix as [i|n|n| | | |k]; cbn [map_instr process_instr needs_accounts] in *.
  all: unfold process_create_mint, process_wrap, process_unwrap, process_close_stuck_escrow, process_sync_metadata_to_token_2022, process_sync_metadata_to_spl_token, process_set_canonical_pointer; cbn [c_infos].
  2:{ rewrite guard_yes by (apply Z; intros ->; apply N; left; reflexivity). do 9 (destruct accounts as [|? accounts]; [reflexivity|cbn [length] in L]). lia. }
  2:{ rewrite guard_yes by (apply Z; intros ->; apply N; right; reflexivity). do 9 (destruct accounts as [|? accounts]; [reflexivity|cbn [length] in L]). lia. }
  all: do 7 (first [exfalso; lia|destruct accounts as [|? accounts]; [reflexivity|cbn [length] in L]]); exfalso; lia.
Qed.
Theorem C56_nothing e accounts ix l : moves_nothing ix -> fails e accounts ix l (ETw ZeroWrapAmount).
Proof. intros [-> | ->]; unfold fails; rewrite outcome_instr by exact eq_refl; reflexivity. Qed.

(** Alice names her own account as the escrow; and an escrow somebody else owns. *)
Lemma demo_all u p w a q : all_derivable demo_env u p w a q.
Proof. repeat split; apply demo_derivable. Qed.
Definition greedy n := build_wrap tw_id d_alice_w (d_w t22_id) (d_a t22_id) spl_token_id t22_id d_alice_u d_u d_alice_u d_alice [] n.
Definition usurped : ledger := upd demo0 (d_esc spl_token_id t22_id) (mkAcc 5000 (DTok (d_tok d_u d_alice 0)) spl_token_id).
Example C56_example_escrow : fails demo_env (tx_metas (greedy 300)) (Wrap 300) demo0 (ETw EscrowMismatch).
Proof.
  apply (C56_wrap demo_env (tx_metas (greedy 300)) demo0 300 d_alice_w (d_w t22_id) (d_a t22_id) spl_token_id t22_id d_alice_u d_u d_alice_u d_alice);
    [exists []; reflexivity|reflexivity|apply demo_all|].
  exists (firstn 3 (wrap_requires demo_env demo0 300 (d_w t22_id) (d_a t22_id) spl_token_id t22_id d_u d_alice_u)), (d_alice_u = ata_of demo_env (d_a t22_id) d_u spl_token_id),
    (skipn 4 (wrap_requires demo_env demo0 300 (d_w t22_id) (d_a t22_id) spl_token_id t22_id d_u d_alice_u)).
  split; [reflexivity|]. split.
  - intros q [<-|[<-|[<-|[]]]]; [exact eq_refl|exact eq_refl|exact eq_refl].
  - intro X. vm_compute in X. discriminate X.
Qed.
Example C56_example_owner : fails demo_env (tx_metas (i_wrap 300)) (Wrap 300) usurped (ETw EscrowOwnerMismatch).
Proof.
  apply (C56_wrap demo_env (tx_metas (i_wrap 300)) usurped 300 d_alice_w (d_w t22_id) (d_a t22_id) spl_token_id t22_id d_alice_u d_u (d_esc spl_token_id t22_id) d_alice);
    [exists []; reflexivity|reflexivity|apply demo_all|].
  assert (D : a_data (usurped (d_esc spl_token_id t22_id)) = DTok (d_tok d_u d_alice 0)) by (vm_compute; reflexivity).
  exists (firstn 6 (wrap_requires demo_env usurped 300 (d_w t22_id) (d_a t22_id) spl_token_id t22_id d_u (d_esc spl_token_id t22_id))), (token_shows usurped (d_esc spl_token_id t22_id) (fun t => t_owner t = d_a t22_id)),
    (skipn 7 (wrap_requires demo_env usurped 300 (d_w t22_id) (d_a t22_id) spl_token_id t22_id d_u (d_esc spl_token_id t22_id))).
  split; [reflexivity|]. split.
  - intros q [<-|[<-|[<-|[<-|[<-|[<-|[]]]]]]]; [exact eq_refl|exact eq_refl|exact eq_refl|exact eq_refl| |]; cbn [fst].
    + intros [(t & D' & S)|(bs & D' & _)]; rewrite D in D'; [injection D' as <-; discriminate S|discriminate D'].
    + exists (d_tok d_u d_alice 0). exact D.
  - intro X. pose proof (X _ D) as Y. vm_compute in Y. discriminate Y.
Qed.
Print Assumptions C56_wrap.
Print Assumptions C56_pointer.
Print Assumptions C56_short.
