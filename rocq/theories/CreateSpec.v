(** * CreateSpec.v — CreateMint in the vocabulary of Spec.v. *)
From Verif Require Import Base Codec State Pda TokenProg Cpi Meta Processor Tac CodecProofs PdaProofs TokProofs FrameProofs ProcProofs Spec SpecLemmas WrapProofs WrapProofs2 CreateProofs CreateProofs2.

Lemma keys_split accounts ks : keys_are accounts ks -> exists more, map i_key accounts = ks ++ more.
Proof. auto. Qed.
Lemma writable_is_wr accounts k : writable accounts k <-> is_wr accounts k = true.
Proof. symmetry. apply is_wr_In. Qed.
Lemma create_outcome e accounts idem l : outcome e accounts (CreateMint idem) l = process_create_mint default_customizer e (mkCtx tw_id accounts) idem l.
Proof. rewrite outcome_instr by exact I. reflexivity. Qed.

Lemma create_result e accounts idem l l' w b u x p :
  keys_are accounts [w; b; u; x; p] -> succeeds e accounts (CreateMint idem) l l' -> no_data l w -> no_data l b ->
  w = wrapped_mint_of e u p /\ b = backpointer_of e w /\ spl_or_t22 p /\ spl_or_t22 (a_owner (l u)) /\
  writable accounts w /\ writable accounts b /\ a_owner (l w) = system_id /\ a_owner (l b) = system_id /\
  exists mu exts size, mint_data l u mu /\ promised_extensions p w (authority_of e w) exts /\ promised_size p size /\
    e_rent e size <= lamports l w /\ e_rent e 32 <= lamports l b /\
    l' w = mkAcc (lamports l w)
             (DMint (mkMint (Some (authority_of e w)) 0 (m_decimals mu) true (m_freeze mu) exts size)) p /\
    l' b = mkAcc (lamports l b) (DKey u) tw_id /\
    forall k, k <> w -> k <> b -> l' k = l k.
Proof.
  intros [more Hk] H Nw Nb. unfold succeeds in H. rewrite create_outcome in H.
  destruct (process_create_inv e (mkCtx tw_id accounts) idem l l' w b u x p more Hk eq_refl H) as (Ew & Eb & Hu & Hc).
  unfold no_data in *. destruct Hc as [([C|C] & _)|Hc]; [lia|lia|].
  destruct Hc as (_ & _ & Ow & Ob & Hp & Ww & Wb & Rw & Rb & mu & Hm & Lw & Lb & Lo).
  split; [exact Ew|]. split; [exact Eb|]. split; [exact Hp|]. split; [exact Hu|].
  split; [apply writable_is_wr; exact Ww|]. split; [apply writable_is_wr; exact Wb|]. split; [exact Ow|]. split; [exact Ob|].
  apply pod_unpack_mint_inv in Hm.
  exists mu, (if pk_eqb p t22_id then [MxConfidentialTransferMint None true None; MxMetadataPointer (Some (authority_of e w)) (Some w)] else []),
    (if pk_eqb p t22_id then 303 else 82).
  split; [exact Hm|]. unfold promised_extensions, promised_size.
  split. { destruct Hp as [->| ->]; cbn; auto. } split. { destruct Hp as [->| ->]; cbn; auto. }
  split; [exact Rw|]. split; [exact Rb|]. split; [exact Lw|]. split; [exact Lb|]. exact Lo.
Qed.

Lemma create_iff e accounts idem l w b u p :
  keys_are accounts [w; b; u; system_id; p] -> writable accounts w -> writable accounts b ->
  addresses_exist e u p -> w = wrapped_mint_of e u p -> b = backpointer_of e w ->
  (exists mu, mint_data l u mu) -> spl_or_t22 (a_owner (l u)) -> spl_or_t22 p ->
  unallocated l w -> unallocated l b ->
  forall size, promised_size p size ->
  ((exists l', succeeds e accounts (CreateMint idem) l l') <-> e_rent e size <= lamports l w /\ e_rent e 32 <= lamports l b) /\
  (~ (e_rent e size <= lamports l w /\ e_rent e 32 <= lamports l b) -> fails e accounts (CreateMint idem) l EAccountNotRentExempt).
Proof.
  intros [more Hk] Ww Wb Ad Ew Eb [mu [Hd Hi]] Hu Hp Uw Ub size Hs.
  assert (S : create_space p = size). { unfold create_space, promised_size in *. destruct Hs as [[-> ->]|[-> ->]]; reflexivity. }
  assert (K : has_key accounts system_id = true). { apply has_key_keys. rewrite Hk. cbn. auto. }
  destruct (process_create_eval e (mkCtx tw_id accounts) idem l w b u system_id p more mu Hk eq_refl K Ew Eb Ad Hp Hu)
    as [E1 E2]; auto.
  { rewrite Hd. apply pod_unpack_mint_ok. exact Hi. }
  { apply writable_is_wr. exact Ww. } { apply writable_is_wr. exact Wb. }
  rewrite S in *. unfold fails, succeeds. rewrite create_outcome. unfold lamports.
  assert (F : ~ (e_rent e size <= a_lamports (l w) /\ e_rent e 32 <= a_lamports (l b)) ->
    process_create_mint default_customizer e (mkCtx tw_id accounts) idem l = Err EAccountNotRentExempt).
  { intro N. apply E2. destruct (N.le_gt_cases (e_rent e size) (a_lamports (l w))); [|auto].
    destruct (N.le_gt_cases (e_rent e 32) (a_lamports (l b))); [tauto|auto]. }
  split; [|exact F]. split.
  - intros [l' H]. destruct (N.le_gt_cases (e_rent e size) (a_lamports (l w))); [|rewrite E2 in H by auto; discriminate].
    destruct (N.le_gt_cases (e_rent e 32) (a_lamports (l b))); [auto|rewrite E2 in H by auto; discriminate].
  - intros [A B]. apply E1; assumption.
Qed.

Lemma create_existing e accounts idem l w b u x p :
  keys_are accounts [w; b; u; x; p] -> has_data l w \/ has_data l b ->
  outcome e accounts (CreateMint idem) l = Ok l \/ exists err, fails e accounts (CreateMint idem) l err.
Proof.
  intros [more Hk] H. unfold fails. rewrite create_outcome. eapply process_create_exists; [exact Hk|reflexivity|].
  unfold has_data in H. destruct H; [left|right]; lia.
Qed.
Lemma create_existing_exact e accounts l w b u x p :
  keys_are accounts [w; b; u; x; p] -> addresses_exist e u p -> w = wrapped_mint_of e u p -> b = backpointer_of e w ->
  spl_or_t22 (a_owner (l u)) -> has_data l w \/ has_data l b ->
  fails e accounts (CreateMint false) l EAccountAlreadyInitialized /\
  (a_owner (l w) = p -> a_owner (l b) = tw_id -> succeeds e accounts (CreateMint true) l l) /\
  (a_owner (l w) <> p -> fails e accounts (CreateMint true) l (ETw InvalidWrappedMintOwner)) /\
  (a_owner (l w) = p -> a_owner (l b) <> tw_id -> fails e accounts (CreateMint true) l (ETw InvalidBackpointerOwner)).
Proof.
  intros [more Hk] Ad Ew Eb Hu Hd.
  assert (H : 0 < data_len (a_data (l w)) \/ 0 < data_len (a_data (l b))) by (unfold has_data in Hd; destruct Hd; [left|right]; lia).
  unfold fails, succeeds. rewrite !create_outcome.
  pose proof (fun i => process_create_exists_eval e (mkCtx tw_id accounts) i l w b u x p more Hk eq_refl Ew Eb Ad Hu H) as E.
  rewrite (E false), (E true).
  split; [reflexivity|]. split; [|split].
  - intros -> ->. rewrite !pk_eqb_refl. reflexivity.
  - intro N. apply pk_eqb_neq in N. rewrite N. reflexivity.
  - intros -> N. apply pk_eqb_neq in N. rewrite pk_eqb_refl, N. reflexivity.
Qed.

(** C08: which programs can be involved. *)
Lemma create_genuine e accounts idem l l' w b u x p :
  keys_are accounts [w; b; u; x; p] -> succeeds e accounts (CreateMint idem) l l' -> l' <> l ->
  spl_or_t22 p /\ spl_or_t22 (a_owner (l u)) /\ exists mu, mint_data l u mu.
Proof.
  intros K H Hne. pose proof K as [more Hk]. pose proof H as H0. unfold succeeds in H0. rewrite create_outcome in H0.
  destruct (process_create_inv e (mkCtx tw_id accounts) idem l l' w b u x p more Hk eq_refl H0) as (_ & _ & Hu & Hc).
  destruct Hc as [(_ & _ & _ & _ & C)|Hc]; [contradiction|].
  destruct Hc as (_ & _ & _ & _ & Hp & _ & _ & _ & _ & mu & Hm & _). apply pod_unpack_mint_inv in Hm. eauto.
Qed.
Lemma wrap_genuine e accounts amount l l' r w a up wp s u esc ta :
  amount < two64 -> keys_are accounts [r; w; a; up; wp; s; u; esc; ta] -> succeeds e accounts (Wrap amount) l l' ->
  spl_or_t22 up /\ spl_or_t22 wp /\ a_owner (l s) = up /\ a_owner (l esc) = up /\ a_owner (l w) = wp.
Proof.
  intros A K H. destruct (wrap_inv _ _ _ _ _ _ _ _ _ _ _ _ _ _ A K H) as (_ & Hup & Hwp & Ew & _ & _ & et & um & ms & extra & l1 & msm & _ & _ & _ & _ & _ & _ & Ht & _).
  split; [exact Hup|]. split; [exact Hwp|].
  destruct (transfer_checked_inv _ _ _ _ _ _ _ _ _ _ _ _ _ _ Ht) as (s0 & m0 & fee & s1 & _ & _ & _ & _ & _ & _ & _ & _ & _ & _ & O1 & O2 & _).
  split; [exact O1|]. split; [exact O2|].
  destruct (pk_dec s esc) as [->|N].
  - destruct (wrap_self_l _ _ _ _ _ _ _ _ _ _ _ _ _ A K H) as (mu & mw & tr & f & _ & [Ow _] & _). exact Ow.
  - destruct (wrap_exact_l _ _ _ _ _ _ _ _ _ _ _ _ _ _ A K H N) as (mu & mw & ts & te & f & ts' & te' & _ & (_ & [Ow _] & _) & _). exact Ow.
Qed.
Lemma unwrap_genuine e accounts amount l l' esc r a u wp up s w ta :
  amount < two64 -> keys_are accounts [esc; r; a; u; wp; up; s; w; ta] -> succeeds e accounts (Unwrap amount) l l' ->
  spl_or_t22 up /\ spl_or_t22 wp /\ a_owner (l s) = wp /\ a_owner (l w) = wp /\ a_owner (l esc) = up /\ a_owner (l r) = up.
Proof.
  intros A K H. destruct (unwrap_inv _ _ _ _ _ _ _ _ _ _ _ _ _ _ A K H) as (_ & Hup & Hwp & _ & _ & _ & msk & msb & l1 & um & extra & ms & _ & _ & Hb & _ & _ & _ & Ht).
  split; [exact Hup|]. split; [exact Hwp|].
  destruct (burn_inv _ _ _ _ _ _ _ _ _ _ Hb) as (s0 & m & s1 & _ & _ & _ & _ & _ & _ & _ & _ & Os & Ow & _ & _ & _ & ->).
  split; [exact Os|]. split; [exact Ow|].
  destruct (transfer_checked_inv _ _ _ _ _ _ _ _ _ _ _ _ _ _ Ht) as (q & m0 & fee & s2 & _ & _ & _ & _ & _ & _ & _ & _ & _ & _ & O1 & O2 & _).
  assert (Q : forall k, a_owner (upd (upd l s (with_data (DTok (set_amount (t_amount s1 - amount) s1)) (l s))) w
                 (with_data (DMint (set_supply (m_supply m - amount) m)) (l w)) k) = a_owner (l k)).
  { intro k. unfold upd. destruct (pk_eqb w k) eqn:E1; [apply pk_eqb_eq in E1; subst k; reflexivity|].
    destruct (pk_eqb s k) eqn:E2; [apply pk_eqb_eq in E2; subst k; reflexivity|reflexivity]. }
  rewrite Q in O1, O2. auto.
Qed.
