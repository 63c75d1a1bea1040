(** * PropCreate.v — C05, C06, C07, C08: creating wrapped mints.

    Account order of CreateMint: [wrapped mint; backpointer; unwrapped mint; system program;
    wrapped token program]. *)
From Verif Require Import Base Codec State Pda TokenProg Cpi Meta Processor Builders PdaProofs Spec Demo CreateSpec.

(** C05: what a CreateMint on fresh accounts leaves behind. *)
Theorem C05_create_mint : forall e accounts idempotent l l' w b u x p,
  keys_are accounts [w; b; u; x; p] -> succeeds e accounts (CreateMint idempotent) l l' -> no_data l w -> no_data l b ->
  w = wrapped_mint_of e u p /\ b = backpointer_of e w /\ spl_or_t22 p /\ spl_or_t22 (a_owner (l u)) /\
  writable accounts w /\ writable accounts b /\ a_owner (l w) = system_id /\ a_owner (l b) = system_id /\
  exists mu exts size, mint_data l u mu /\ promised_extensions p w (authority_of e w) exts /\ promised_size p size /\
    e_rent e size <= lamports l w /\ e_rent e 32 <= lamports l b /\
    l' w = mkAcc (lamports l w)
             (DMint (mkMint (Some (authority_of e w)) 0 (m_decimals mu) true (m_freeze mu) exts size)) p /\
    l' b = mkAcc (lamports l b) (DKey u) tw_id /\
    forall k, k <> w -> k <> b -> l' k = l k.
Proof. exact create_result. Qed.
Print Assumptions C05_create_mint.

Example C05_nonvacuous : exists l',
  keys_are (tx_metas i_create) [d_w t22_id; d_b t22_id; d_u; system_id; t22_id] /\
  succeeds demo_env (tx_metas i_create) (CreateMint false) demo0 l' /\ no_data demo0 (d_w t22_id) /\ no_data demo0 (d_b t22_id) /\
  (exists m, mint_account l' (d_w t22_id) t22_id m /\ m_decimals m = 6 /\ m_freeze m = Some d_freeze /\ length (m_exts m) = 2%nat).
Proof.
  eexists. split; [exists []; vm_compute; reflexivity|]. split; [vm_compute; reflexivity|].
  split; [vm_compute; reflexivity|]. split; [vm_compute; reflexivity|]. eexists. repeat split; vm_compute; reflexivity.
Qed.

(** C06: with the right addresses, CreateMint succeeds iff both accounts are rent exempt — more
    lamports never hurt — and otherwise fails with AccountNotRentExempt. *)
Theorem C06_create_mint_iff : forall e accounts idempotent l w b u p,
  keys_are accounts [w; b; u; system_id; p] -> writable accounts w -> writable accounts b ->
  addresses_exist e u p -> w = wrapped_mint_of e u p -> b = backpointer_of e w ->
  (exists mu, mint_data l u mu) -> spl_or_t22 (a_owner (l u)) -> spl_or_t22 p ->
  unallocated l w -> unallocated l b ->
  forall size, promised_size p size ->
  ((exists l', succeeds e accounts (CreateMint idempotent) l l') <-> e_rent e size <= lamports l w /\ e_rent e 32 <= lamports l b) /\
  (~ (e_rent e size <= lamports l w /\ e_rent e 32 <= lamports l b) ->
     fails e accounts (CreateMint idempotent) l EAccountNotRentExempt).
Proof. exact create_iff. Qed.
Print Assumptions C06_create_mint_iff.

Lemma demo_derivable s p : derivable demo_env s p.
Proof. exists 255. split; [split; discriminate|reflexivity]. Qed.
Example C06_nonvacuous :
  keys_are (tx_metas i_create) [d_w t22_id; d_b t22_id; d_u; system_id; t22_id] /\
  writable (tx_metas i_create) (d_w t22_id) /\ writable (tx_metas i_create) (d_b t22_id) /\
  addresses_exist demo_env d_u t22_id /\ (exists mu, mint_data demo0 d_u mu) /\ spl_or_t22 (a_owner (demo0 d_u)) /\
  unallocated demo0 (d_w t22_id) /\ unallocated demo0 (d_b t22_id) /\ promised_size t22_id 303.
Proof.
  split; [exists []; vm_compute; reflexivity|].
  split; [exists (mkInfo (d_w t22_id) false true); vm_compute; auto|].
  split; [exists (mkInfo (d_b t22_id) false true); vm_compute; auto|].
  split; [repeat split; apply demo_derivable|]. split; [exists d_mint; split; vm_compute; reflexivity|].
  split; [left; vm_compute; reflexivity|]. repeat split; try (vm_compute; reflexivity). right. auto.
Qed.

(** C07: when one of the two accounts already holds data, nothing ever changes. *)
Theorem C07_no_change : forall e accounts idempotent l w b u x p,
  keys_are accounts [w; b; u; x; p] -> has_data l w \/ has_data l b ->
  outcome e accounts (CreateMint idempotent) l = Ok l \/ exists err, fails e accounts (CreateMint idempotent) l err.
Proof. exact create_existing. Qed.
Print Assumptions C07_no_change.
Theorem C07_exact : forall e accounts l w b u x p,
  keys_are accounts [w; b; u; x; p] -> addresses_exist e u p -> w = wrapped_mint_of e u p -> b = backpointer_of e w ->
  spl_or_t22 (a_owner (l u)) -> has_data l w \/ has_data l b ->
  fails e accounts (CreateMint false) l EAccountAlreadyInitialized /\
  (a_owner (l w) = p -> a_owner (l b) = tw_id -> succeeds e accounts (CreateMint true) l l) /\
  (a_owner (l w) <> p -> fails e accounts (CreateMint true) l (ETw InvalidWrappedMintOwner)) /\
  (a_owner (l w) = p -> a_owner (l b) <> tw_id -> fails e accounts (CreateMint true) l (ETw InvalidBackpointerOwner)).
Proof. exact create_existing_exact. Qed.
Print Assumptions C07_exact.
(** After a successful creation every further idempotent CreateMint succeeds without effect and
    every non-idempotent one is refused. *)
Theorem C07_after_create : forall e accounts idempotent l l' w b u x p accounts2 x2,
  keys_are accounts [w; b; u; x; p] -> succeeds e accounts (CreateMint idempotent) l l' -> no_data l w -> no_data l b ->
  keys_are accounts2 [w; b; u; x2; p] -> addresses_exist e u p ->
  succeeds e accounts2 (CreateMint true) l' l' /\ fails e accounts2 (CreateMint false) l' EAccountAlreadyInitialized.
Proof.
  intros e accounts idempotent l l' w b u x p accounts2 x2 K H Nw Nb K2 Ad.
  destruct (create_result _ _ _ _ _ _ _ _ _ _ K H Nw Nb) as (Ew & Eb & _ & Hu & _ & _ & _ & _ & mu & exts & size & _ & _ & _ & _ & _ & Lw & Lb & Lo).
  assert (u <> w) by (rewrite Ew; apply unwrapped_neq_wrapped).
  assert (u <> b) by (rewrite Eb, Ew; intro X; symmetry in X; revert X; apply backpointer_neq_unwrapped).
  destruct (create_existing_exact e accounts2 l' w b u x2 p K2 Ad Ew Eb) as (A & B & _).
  { rewrite Lo by assumption. exact Hu. }
  { right. unfold has_data. rewrite Lb. discriminate. }
  split; [|exact A]. apply B; [rewrite Lw|rewrite Lb]; reflexivity.
Qed.
Print Assumptions C07_after_create.
Example C07_nonvacuous :
  observe (fun l' => (data_len (a_data (l' (d_w t22_id))), data_len (a_data (l' (d_b t22_id)))))
    (run_all [i_create; build_create_mint tw_id (d_w t22_id) (d_b t22_id) d_u t22_id true] demo0) = Some (303, 32).
Proof. vm_compute. reflexivity. Qed.

(** C08: only genuine mints of SPL Token and Token-2022 can be wrapped, and only these programs
    take part in wrapping and unwrapping. *)
Theorem C08_create_genuine : forall e accounts idempotent l l' w b u x p,
  keys_are accounts [w; b; u; x; p] -> succeeds e accounts (CreateMint idempotent) l l' -> l' <> l ->
  spl_or_t22 p /\ spl_or_t22 (a_owner (l u)) /\ exists mu, mint_data l u mu.
Proof. exact create_genuine. Qed.
Print Assumptions C08_create_genuine.
Theorem C08_wrap_genuine : forall e accounts amount l l' r w a up wp s u esc ta,
  amount < two64 -> keys_are accounts [r; w; a; up; wp; s; u; esc; ta] -> succeeds e accounts (Wrap amount) l l' ->
  spl_or_t22 up /\ spl_or_t22 wp /\ a_owner (l s) = up /\ a_owner (l esc) = up /\ a_owner (l w) = wp.
Proof. exact wrap_genuine. Qed.
Print Assumptions C08_wrap_genuine.
Theorem C08_unwrap_genuine : forall e accounts amount l l' esc r a u wp up s w ta,
  amount < two64 -> keys_are accounts [esc; r; a; u; wp; up; s; w; ta] -> succeeds e accounts (Unwrap amount) l l' ->
  spl_or_t22 up /\ spl_or_t22 wp /\ a_owner (l s) = wp /\ a_owner (l w) = wp /\ a_owner (l esc) = up /\ a_owner (l r) = up.
Proof. exact unwrap_genuine. Qed.
Print Assumptions C08_unwrap_genuine.
Example C08_nonvacuous :
  observe (fun l' => supply l' (d_w t22_id)) (run_all [i_create; i_wrap 300; i_unwrap 100] demo0) = Some 200.
Proof. vm_compute. reflexivity. Qed.
