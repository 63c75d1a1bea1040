(** * PropReach2.v — C08, C17, C24, C25 in reachable states: hypotheses that every history guarantees are gone. *)
From Verif Require Import Base Codec State Pda TokenProg Cpi Ata Meta Processor Builders Tac Demo Demo2 PdaProofs TokProofs ProcProofs Spec SpecLemmas WrapProofs WrapProofs2 CloseProofs HistorySpec
  InvState InvHist EscProofs SolProofs HistProofs EscLive MatchProofs SyncProofs SyncSpec UnwrapLive WrapLive DemoHist PropClose PropSync PropHistory PropRedeem PropLive PropEscrow PropReach.

(** What every reachable wrapped mint looks like. *)
Lemma reach_wrapped e0 e l u wtp : reachable e0 l -> same_curve e0 e ->
  let w := wrapped_mint_of e u wtp in
  unallocated l w \/
  (spl_or_t22 wtp /\ exists m, mint_account l w wtp m /\ m_auth m = Some (authority_of e w) /\ tight m /\ wrapped_exts wtp w (authority_of e w) (m_exts m)).
Proof.
  intros [past H] C w. pose proof (history_inv _ _ _ H) as I. unfold w. rewrite <- (wrapped_mint_of_curve e0 e u wtp C). clear w.
  destruct (inv_wrapped _ _ u wtp I) as [B|(T & O & m & D & Im & Au & X)].
  - left. destruct B as [B1 B2]. split; [exact B1|exact B2].
  - right. split; [exact T|]. exists m. rewrite <- (authority_of_curve e0 e (wrapped_mint_of e0 u wtp) C).
    split; [split; [exact O|split; [exact D|exact Im]]|]. split; [exact Au|]. split; [|exact X].
    assert (T' : token_program (a_owner (l (wrapped_mint_of e0 u wtp)))) by (rewrite O; exact T).
    destruct (inv_mint _ _ _ _ I T' D) as (_ & _ & _ & _ & Ti & _). exact (Ti Im).
Qed.
Lemma wrapped_exts_md p w a x t m : wrapped_exts p w a x -> m_exts m = x -> own_metadata m t -> tm_update_authority t = Some a /\ tm_mint t = w /\ distinct_keys (tm_additional t).
Proof.
  intros X E O. unfold own_metadata, ext_metadata in O. rewrite E in O. destruct X as [[(_ & ->)|(_ & ->)]|(_ & t0 & -> & A & B & C)].
  - cbn in O. discriminate O.
  - cbn in O. discriminate O.
  - cbn in O. inversion O; subst t0. split; [exact A|]. split; [exact B|exact C].
Qed.
Lemma wrapped_exts_pointer w a m : wrapped_exts t22_id w a (m_exts m) -> ~ no_pointer m.
Proof.
  intros X P. unfold no_pointer, ext_pointer in P. destruct X as [[(Q & _)|(_ & E)]|(_ & t0 & E & _)]; [discriminate Q| |]; rewrite E in P; cbn in P; discriminate P.
Qed.
Lemma reach_md e0 e l u w m t : reachable e0 l -> same_curve e0 e -> w = wrapped_mint_of e u t22_id -> mint_data l w m -> own_metadata m t -> distinct_keys (tm_additional t).
Proof.
  intros R C -> (D & _) O. destruct (reach_wrapped e0 e l u t22_id R C) as [(U & _)|(_ & m0 & (_ & D0 & _) & _ & _ & X)].
  - rewrite D in U. discriminate U.
  - rewrite D in D0. injection D0 as E0. subst m0. destruct (wrapped_exts_md _ _ _ _ _ m X eq_refl O) as (_ & _ & K). exact K.
Qed.

Lemma sync_addr e accounts l l' w a u p : keys_are accounts [w; a; u; p] -> succeeds e accounts SyncMetadataToToken2022 l l' ->
  w = wrapped_mint_of e u t22_id /\ a = authority_of e w.
Proof.
  intros [more K] S. unfold succeeds in S. rewrite sync_t22_outcome in S.
  destruct (process_sync_t22_inv _ (mkCtx tw_id accounts) _ _ _ _ _ _ _ K eq_refl S) as (_ & _ & Ew & Ea & _). split; [exact Ew|exact Ea].
Qed.
(** C24: in every reachable state, a successful SyncMetadataToToken2022 leaves the wrapped mint showing exactly the
    metadata that belongs to the unwrapped mint; the wrapped mint names itself as its mint and its own authority as the
    only one that may ever update the metadata. *)
Theorem C24_sync_copies_reachable : forall e0 e accounts l l' w a u p,
  reachable e0 l -> same_curve e0 e -> keys_are accounts [w; a; u; p] -> succeeds e accounts SyncMetadataToToken2022 l l' ->
  w = wrapped_mint_of e u t22_id /\ a = authority_of e w /\
  exists src m' t', authentic_metadata e l u src /\ mint_account l' w t22_id m' /\ own_metadata m' t' /\
    tm_name t' = tm_name src /\ tm_symbol t' = tm_symbol src /\ tm_uri t' = tm_uri src /\
    same_fields (tm_additional src) (tm_additional t') /\ tm_update_authority t' = Some a /\ tm_mint t' = w.
Proof.
  intros e0 e accounts l l' w a u p R C K S. destruct (sync_addr e accounts l l' w a u p K S) as [Ew Ea].
  assert (Dk : forall m t, mint_data l w m -> own_metadata m t -> distinct_keys (tm_additional t)).
  { intros m t. exact (reach_md e0 e l u w m t R C Ew). }
  destruct (C24_sync_copies e accounts l l' w a u p K S Dk) as (_ & _ & src & m' & t' & A1 & A2 & A3 & A4 & A5 & A6 & A7).
  split; [exact Ew|]. split; [exact Ea|]. exists src, m', t'.
  assert (X : tm_update_authority t' = Some a /\ tm_mint t' = w).
  { destruct (C25_confined e accounts l l' w a u p K S Dk) as ((m & m2 & M & M2 & _ & _ & H1 & H2) & _).
    assert (E2 : m2 = m'). { destruct A2 as (_ & D1 & _). destruct M2 as (_ & D2 & _). rewrite D1 in D2. injection D2 as Q. exact (eq_sym Q). }
    subst m2. destruct (ext_metadata m) as [t|] eqn:Em.
    - destruct (H1 t Em) as (t2 & O2 & U2 & N2). assert (Q : t2 = t') by (unfold own_metadata in *; rewrite A3 in O2; injection O2 as Q; exact (eq_sym Q)). subst t2.
      destruct (reach_wrapped e0 e l u t22_id R C) as [(U & _)|(_ & m0 & (_ & D0 & _) & _ & _ & X)].
      + destruct M as (_ & D & _). rewrite <- Ew, D in U. discriminate U.
      + rewrite <- Ew in D0, X. destruct M as (_ & D & _). rewrite D in D0. injection D0 as E0. subst m0. rewrite <- Ea in X.
        destruct (wrapped_exts_md _ _ _ _ t m X eq_refl Em) as (Y1 & Y2 & _). rewrite U2, N2. split; [exact Y1|exact Y2].
    - destruct H2 as (t2 & O2 & U2 & N2); [intros t Q; unfold own_metadata in Q; rewrite Em in Q; discriminate Q|].
      assert (Q : t2 = t') by (unfold own_metadata in *; rewrite A3 in O2; injection O2 as Q; exact (eq_sym Q)). subst t2. split; [exact U2|exact N2]. }
  destruct X as [X1 X2]. split; [exact A1|]. split; [exact A2|]. split; [exact A3|]. split; [exact A4|]. split; [exact A5|]. split; [exact A6|]. split; [exact A7|]. split; [exact X1|exact X2].
Qed.
Print Assumptions C24_sync_copies_reachable.

Lemma sync_live_aux e0 e accounts l w a u :
  reachable e0 l -> same_curve e0 e -> keys_are accounts [w; a; u; t22_id] -> sync_addresses_exist e u t22_id ->
  w = wrapped_mint_of e u t22_id -> a = authority_of e w -> writable accounts w -> ~ unallocated l w ->
  (forall x y, e_realloc_ok e x y = true) ->
  (forall err, ~ source_error e l u (nth_error (map i_key accounts) 4) (nth_error (map i_key accounts) 5) err) ->
  exists l', succeeds e accounts SyncMetadataToToken2022 l l'.
Proof.
  intros R C K Ad Ew Ea W Nu Re Se. destruct (reach_wrapped e0 e l u t22_id R C) as [U|(_ & m & M & Au & _ & X)].
  - exfalso. apply Nu. rewrite Ew. exact U.
  - rewrite <- Ew in M, Au, X. rewrite <- Ea in Au, X.
    refine (C24_sync_live e accounts l w a u m K Ad Ew Ea W M Au (wrapped_exts_pointer w a m X) _ Re Se).
    intros t O. destruct (wrapped_exts_md _ _ _ _ t m X eq_refl O) as (Y1 & _ & Y3). split; [exact Y1|exact Y3].
Qed.
(** C24: ... and it succeeds for every existing wrapped mint whose unwrapped mint has metadata that is passed along,
    whoever calls it and however often it was synced before. *)
Theorem C24_sync_live_reachable : forall e0 e accounts l u,
  reachable e0 l -> same_curve e0 e ->
  let w := wrapped_mint_of e u t22_id in let a := authority_of e w in
  keys_are accounts [w; a; u; t22_id] -> sync_addresses_exist e u t22_id -> writable accounts w -> ~ unallocated l w ->
  (forall x y, e_realloc_ok e x y = true) ->
  (forall err, ~ source_error e l u (nth_error (map i_key accounts) 4) (nth_error (map i_key accounts) 5) err) ->
  exists l', succeeds e accounts SyncMetadataToToken2022 l l'.
Proof.
  intros e0 e accounts l u R C w a K Ad W Nu Re Se. exact (sync_live_aux e0 e accounts l w a u R C K Ad eq_refl eq_refl W Nu Re Se).
Qed.
Print Assumptions C24_sync_live_reachable.

(** C25: in every reachable state, a sync changes nothing but the wrapped mint's metadata, and repeating it without any
    change of the source in between changes nothing. *)
Theorem C25_confined_reachable : forall e0 e accounts l l' w a u p,
  reachable e0 l -> same_curve e0 e -> keys_are accounts [w; a; u; p] -> succeeds e accounts SyncMetadataToToken2022 l l' ->
  (exists m m', mint_account l w t22_id m /\ mint_account l' w t22_id m' /\ same_core m m' /\ tight m') /\
  lamports l' w = lamports l w /\ forall k, k <> w -> l' k = l k.
Proof.
  intros e0 e accounts l l' w a u p R C K S. destruct (sync_addr e accounts l l' w a u p K S) as [Ew _].
  assert (Dk : forall m t, mint_data l w m -> own_metadata m t -> distinct_keys (tm_additional t)).
  { intros m t. exact (reach_md e0 e l u w m t R C Ew). }
  destruct (C25_confined e accounts l l' w a u p K S Dk) as ((m & m2 & M & M2 & Sc & Ti & _) & L & O).
  split; [|split; [exact L|exact O]]. exists m, m2. split; [exact M|]. split; [exact M2|]. split; [exact Sc|]. apply Ti.
  destruct (reach_wrapped e0 e l u t22_id R C) as [(U & _)|(_ & m0 & (_ & D0 & _) & _ & T0 & _)].
  - destruct M as (_ & D & _). rewrite <- Ew, D in U. discriminate U.
  - destruct M as (_ & D & _). rewrite <- Ew, D in D0. injection D0 as E0. subst m0. exact T0.
Qed.
Print Assumptions C25_confined_reachable.
Theorem C25_twice_reachable : forall e0 e accounts l l1 l2 w a u p,
  reachable e0 l -> same_curve e0 e -> keys_are accounts [w; a; u; p] ->
  succeeds e accounts SyncMetadataToToken2022 l l1 -> succeeds e accounts SyncMetadataToToken2022 l1 l2 ->
  forall k, l2 k = l1 k.
Proof.
  intros e0 e accounts l l1 l2 w a u p R C K S1 S2. destruct (sync_addr e accounts l l1 w a u p K S1) as [Ew _].
  refine (C25_twice e accounts l l1 l2 w a u p K _ _ S1 S2).
  - intros m (D & _). destruct (reach_wrapped e0 e l u t22_id R C) as [(U & _)|(_ & m0 & (_ & D0 & _) & _ & T0 & _)].
    + rewrite <- Ew, D in U. discriminate U.
    + rewrite <- Ew, D in D0. injection D0 as E0. subst m0. exact T0.
  - intros m t. exact (reach_md e0 e l u w m t R C Ew).
Qed.
Print Assumptions C25_twice_reachable.

(** C08: an escrow is only ever closed for a genuine Token-2022 mint, as part of a genuine wrapped mint of SPL Token or
    Token-2022 (or, if the wrapped mint passed does not exist, at an address that belongs to no wrapped mint at all). *)
Theorem C08_close_genuine : forall e0 e accounts l l' esc d u w a p,
  reachable e0 l -> same_curve e0 e -> keys_are accounts [esc; d; u; w; a; p] -> succeeds e accounts CloseStuckEscrow l l' ->
  (exists mu, mint_account l u t22_id mu) /\
  ((exists wtp mw, spl_or_t22 wtp /\ w = wrapped_mint_of e u wtp /\ mint_account l w wtp mw /\ m_auth mw = Some a) \/
   (unallocated l w /\ forall wtp, spl_or_t22 wtp -> w <> wrapped_mint_of e u wtp)).
Proof.
  intros e0 e accounts l l' esc d u w a p R C K S.
  destruct (C22_close _ _ _ _ _ _ _ _ _ _ K S) as ((Ew & Ea & _) & _ & (mu & te & M & _) & _).
  split; [exists mu; exact M|].
  destruct (reach_wrapped e0 e l u (a_owner (l w)) R C) as [U|(T & m & Mw & Au & _)].
  - right. rewrite <- Ew in U. split; [exact U|]. intros wtp T Q. destruct U as [_ U]. rewrite U in Ew.
    assert (X : wtp = system_id). { rewrite Ew in Q. exact (eq_sym (proj2 (wrapped_mint_of_inj e u system_id u wtp Q))). }
    rewrite X in T. destruct T as [T|T]; discriminate T.
  - left. rewrite <- Ew in Mw, Au. exists (a_owner (l w)), m. split; [exact T|]. split; [exact Ew|]. split; [exact Mw|]. rewrite Ea. exact Au.
Qed.
Print Assumptions C08_close_genuine.

(** ** Wrapped SOL *)

(** The two mints of wrapped SOL and their programs. *)
Definition sol_mint (u utp : pubkey) : Prop := (u = native_mint_id /\ utp = spl_token_id) \/ (u = native_mint_2022_id /\ utp = t22_id).
(** C17 for SOL: wrapped wrapped-SOL is always backed, without any condition on the history: by tokens, and the tokens
    by lamports on the same account.  (Token-2022's wrapped-SOL mint need not exist; SPL Token's always does.) *)
Theorem C17_wrapped_sol : forall e0 l u utp wtp,
  reachable e0 l -> spl_or_t22 wtp -> sol_mint u utp -> (utp = t22_id -> a_owner (l u) = t22_id) ->
  let esc := escrow_of e0 u utp wtp in
  supply l (wrapped_mint_of e0 u wtp) <= balance l esc /\ balance l esc <= lamports l esc.
Proof.
  intros e0 l u utp wtp R Tw Sm Ow esc. pose proof R as [past H]. pose proof (history_inv _ _ _ H) as I.
  assert (Nm : native_mint u) by (destruct Sm as [[-> _]|[-> _]]; [left|right]; reflexivity).
  assert (Tu : spl_or_t22 utp) by (destruct Sm as [[_ ->]|[_ ->]]; [left|right]; reflexivity).
  assert (Nb : is_native_mint utp u = true) by (destruct Sm as [[-> ->]|[-> ->]]; reflexivity).
  assert (O : a_owner (l u) = utp) by (destruct Sm as [[-> ->]|[-> ->]]; [apply (inv_sol _ _ I)|apply Ow; reflexivity]).
  pose proof (native_ever e0 past l u H Nm) as Ev.
  split; [exact (proj2 (C17_backed e0 past l u utp wtp H Tw Tu O Ev))|].
  destruct (C37_genuine e0 l u utp wtp R Tu) as [(D & _)|(t & O1 & D & M & _)]; unfold esc, balance; rewrite D; [apply N.le_0_l|].
  apply (sol_amount e0 l utp _ t R Tu O1 D). rewrite M. exact Nb.
Qed.
Print Assumptions C17_wrapped_sol.

(** ** The hypotheses are met *)

(** A stale escrow: the mint was closed and created again with other extensions after its escrow had been created. *)
Definition stuck_story : list cmd := firstn 13 trap_setup.
Example C23_exact_nonvacuous : reachable demo_env (now_of stuck_story) /\ ~ unallocated (now_of stuck_story) (d_w spl_token_id) /\
  exists mu te, mint_account (now_of stuck_story) d_u t22_id mu /\ token_account (now_of stuck_story) (d_esc t22_id spl_token_id) t22_id te /\
    t_amount te = 0 /\ t_state te = Initialized /\ withheld te = 0 /\ ~ healthy mu te.
Proof.
  split; [eexists; apply played_history; vm_compute; reflexivity|]. split; [intros [X _]; vm_compute in X; discriminate X|].
  do 2 eexists. split; [split; [vm_compute; reflexivity|split; [vm_compute; reflexivity|reflexivity]]|].
  split; [split; [vm_compute; reflexivity|split; [vm_compute; reflexivity|discriminate]]|].
  split; [reflexivity|]. split; [reflexivity|]. split; [reflexivity|].
  intro Q. specialize (Q XtNonTransferableAccount). cbn in Q. destruct Q as [Q _].
  destruct Q as [Q|Q]; [right; left; reflexivity| |discriminate Q]. inversion Q as [| X | | | ]. exact X.
Qed.
Example C23_recovery_nonvacuous : exists l',
  keys_are (tx_metas x_close) [d_esc t22_id spl_token_id; d_alice; d_u; d_w spl_token_id; d_a spl_token_id; t22_id] /\
  succeeds demo_env (tx_metas x_close) CloseStuckEscrow (now_of stuck_story) l'.
Proof. eexists. split; [exists []; reflexivity|]. unfold succeeds. vm_compute. reflexivity. Qed.

(** A Token-2022 mint with its own metadata. *)
Definition md_ptr : mint_ext := MxMetadataPointer (Some d_mintauth) (Some d_u).
Definition md_story : list cmd :=
  [ CFund (d_w t22_id) 9000; CFund (d_b t22_id) 4000; CAlloc d_u (mint_space [md_ptr]) 90000 t22_id;
    CTok t22_id [meta_w d_u false] (TiInitExt md_ptr);
    CTok t22_id [meta_w d_u false] (TiInitializeMint2 6 d_mintauth None);
    CTok t22_id [meta_w d_u false; meta_r d_mintauth false; meta_r d_u false; meta_r d_mintauth true] (TiMdInitialize "Coin" "C" "uri");
    CTok t22_id [meta_w d_u false; meta_r d_mintauth true] (TiMdUpdateField (FKey "k") "v");
    CTw i_create ].
Definition md_sync : tw_instruction := build_sync_to_token_2022 tw_id (d_w t22_id) (d_a t22_id) d_u None None.
Example C24_reachable_nonvacuous : exists l', reachable demo_env (now_of md_story) /\
  keys_are (tx_metas md_sync) [d_w t22_id; d_a t22_id; d_u; t22_id] /\ succeeds demo_env (tx_metas md_sync) SyncMetadataToToken2022 (now_of md_story) l' /\
  ~ unallocated (now_of md_story) (d_w t22_id) /\
  option_map (fun t => (tm_name t, tm_symbol t, tm_uri t, tm_additional t)) (metadata_of l' (d_w t22_id)) = Some ("Coin", "C", "uri", [("k", "v")])%string.
Proof.
  eexists. split; [eexists; apply played_history; vm_compute; reflexivity|]. split; [exists []; reflexivity|].
  split; [unfold succeeds; vm_compute; reflexivity|]. split; [intros [X _]; vm_compute in X; discriminate X|]. vm_compute. reflexivity.
Qed.

(** Wrapped SOL, wrapped. *)
Definition sw : pubkey := wrapped_mint_of demo_env native_mint_id t22_id.
Definition s_esc : pubkey := escrow_of demo_env native_mint_id spl_token_id t22_id.
Definition sol_story : list cmd :=
  [ CFund sw 9000; CFund (backpointer_of demo_env sw) 4000; CFund s_esc 5000; CAlloc d_alice_u 165 9000 spl_token_id; CAlloc d_alice_w 165 5000 t22_id;
    CTok spl_token_id [meta_w d_alice_u false; meta_r native_mint_id false] (TiInitializeAccount d_alice false);
    CTw (build_create_mint tw_id sw (backpointer_of demo_env sw) native_mint_id t22_id false);
    CAta spl_token_id (authority_of demo_env sw) native_mint_id;
    CTok t22_id [meta_w d_alice_w false; meta_r sw false] (TiInitializeAccount d_alice false);
    CTw (build_wrap tw_id d_alice_w sw (authority_of demo_env sw) spl_token_id t22_id d_alice_u native_mint_id s_esc d_alice [] 7000) ].
Example C17_wrapped_sol_nonvacuous : reachable demo_env (now_of sol_story) /\ sol_mint native_mint_id spl_token_id /\
  supply (now_of sol_story) sw = 7000 /\ 7000 <= balance (now_of sol_story) s_esc.
Proof.
  split; [eexists; apply played_history; vm_compute; reflexivity|]. split; [left; split; reflexivity|]. split; vm_compute; [reflexivity|discriminate].
Qed.
Print Assumptions C17_wrapped_sol_nonvacuous.

(** ** Mints that cannot be closed: the escrow always fits, so nothing about it needs to be assumed but that it is not frozen. *)
Lemma redeem_uncloseable e0 e past l u wtp accounts more signers n recipient source owner mu ts tr w a esc :
  history e0 past l -> ever (no_permanent_delegate u) past l -> ever (uncloseable u) past l -> same_curve e0 e -> spl_or_t22 wtp ->
  w = wrapped_mint_of e u wtp -> a = authority_of e w -> esc = escrow_of e u t22_id wtp ->
  derivable e (wrapped_mint_seeds u wtp) tw_id -> derivable e (wrapped_mint_authority_seeds w) tw_id -> derivable e (ata_seeds a u t22_id) ata_id ->
  map i_key accounts = [esc; recipient; a; u; wtp; t22_id; source; w; owner] ++ more ->
  writable accounts esc -> writable accounts recipient -> writable accounts source -> writable accounts w ->
  e_multisig e l owner (skipn 9 accounts) = Ok signers -> incl signers more -> owner_acts accounts l wtp owner signers ->
  appends_signers e accounts ->
  holder l wtp w source owner ts -> 0 < n -> n <= t_amount ts ->
  transferable l t22_id u mu -> ~ In MxNonTransferable (m_exts mu) -> can_receive e l t22_id u recipient mu tr -> recipient <> esc ->
  (forall t, a_data (l esc) = DTok t -> t_state t = Initialized) ->
  (native_mint u -> lamports l recipient + lamports l esc < two64) ->
  exists l', succeeds e accounts (Unwrap n) l l'.
Proof.
  intros H Np Uc C Tw Ew Ea Ee D1 D2 D3 K W1 W2 W3 W4 Ms In Ac Ex Ho P1 P2 Tr NT Ca Ne Fr Na.
  assert (Op : open_account l esc).
  { intros t D. assert (D' : a_data (l (escrow_of e0 u t22_id wtp)) = DTok t) by (rewrite (escrow_of_curve e0 e u t22_id wtp C), <- Ee; exact D).
    destruct (C38_fits e0 past l u wtp t H Uc D') as (m & M & He).
    assert (E : m = mu). { destruct M as (_ & Dm & _). destruct Tr as ((_ & Dm2 & _) & _). rewrite Dm in Dm2. injection Dm2 as Q. exact Q. } subst m.
    split.
    - exact (Fr t D).
    - intro Q. apply He in Q. destruct Q as [Q|Q]; [|discriminate Q]. inversion Q as [| X | | | ]. exact (NT X). }
  assert (T22 : spl_or_t22 t22_id) by (right; reflexivity). subst esc a w.
  exact (C19_redeemable e0 e past l u t22_id wtp accounts more signers n recipient source owner mu ts tr H Np C Tw T22 D1 D2 D3 K W1 W2 W3 W4 Ms In Ac Ex Ho P1 P2 Tr Ca Ne Op Na).
Qed.
(** C19, for Token-2022 mints that could never be closed: a holder redeems whatever the state of the escrow, unless the
    issuer froze it or made the mint non-transferable. *)
Theorem C19_redeemable_uncloseable : forall e0 e past l u wtp accounts more signers n recipient source owner mu ts tr,
  history e0 past l -> ever (no_permanent_delegate u) past l -> ever (uncloseable u) past l -> same_curve e0 e -> spl_or_t22 wtp ->
  let w := wrapped_mint_of e u wtp in let a := authority_of e w in let esc := escrow_of e u t22_id wtp in
  derivable e (wrapped_mint_seeds u wtp) tw_id -> derivable e (wrapped_mint_authority_seeds w) tw_id -> derivable e (ata_seeds a u t22_id) ata_id ->
  map i_key accounts = [esc; recipient; a; u; wtp; t22_id; source; w; owner] ++ more ->
  writable accounts esc -> writable accounts recipient -> writable accounts source -> writable accounts w ->
  e_multisig e l owner (skipn 9 accounts) = Ok signers -> incl signers more -> owner_acts accounts l wtp owner signers ->
  appends_signers e accounts ->
  holder l wtp w source owner ts -> 0 < n -> n <= t_amount ts ->
  transferable l t22_id u mu -> ~ In MxNonTransferable (m_exts mu) -> can_receive e l t22_id u recipient mu tr -> recipient <> esc ->
  (forall t, a_data (l esc) = DTok t -> t_state t = Initialized) ->
  (native_mint u -> lamports l recipient + lamports l esc < two64) ->
  exists l', succeeds e accounts (Unwrap n) l l'.
Proof.
  intros e0 e past l u wtp accounts more signers n recipient source owner mu ts tr H Np Uc C Tw w a esc.
  exact (redeem_uncloseable e0 e past l u wtp accounts more signers n recipient source owner mu ts tr w a esc H Np Uc C Tw eq_refl eq_refl eq_refl).
Qed.
Print Assumptions C19_redeemable_uncloseable.
Lemma fee_fits e0 e past l u wtp mu te esc :
  history e0 past l -> ever (uncloseable u) past l -> same_curve e0 e -> esc = escrow_of e u t22_id wtp -> mint_account l u t22_id mu -> a_data (l esc) = DTok te ->
  ext_fee mu <> None -> In XtTransferFeeAmount (map acct_ext_type_of (t_exts te)).
Proof.
  intros H Uc C Ee M D F. rewrite Ee, <- (escrow_of_curve e0 e u t22_id wtp C) in D. destruct (C38_fits e0 past l u wtp te H Uc D) as (m & M2 & He).
  assert (E : m = mu). { destruct M as (_ & D1 & _). destruct M2 as (_ & D2 & _). rewrite D1 in D2. injection D2 as Q. exact (eq_sym Q). } subst m.
  apply He. left. unfold ext_fee in F. clear -F. assert (X : exists c, In (MxTransferFee c) (m_exts mu)).
  { induction (m_exts mu) as [|x r IH]; cbn in F; [exfalso; apply F; reflexivity|].
    destruct x; try (destruct (IH F) as [c Hc]; exists c; right; exact Hc). exists c. left. reflexivity. }
  destruct X as [c X]. exact (demands_fee mu c X).
Qed.
(** C36 likewise: wrapping never fails because of the escrow's layout. *)
Theorem C36_wrappable_uncloseable : forall e0 e past l u wtp accounts more signers n recipient source owner mu mw ts tr te,
  history e0 past l -> ever (uncloseable u) past l -> same_curve e0 e -> spl_or_t22 wtp ->
  let w := wrapped_mint_of e u wtp in let a := authority_of e w in let esc := escrow_of e u t22_id wtp in
  derivable e (wrapped_mint_seeds u wtp) tw_id -> derivable e (wrapped_mint_authority_seeds w) tw_id -> derivable e (ata_seeds a u t22_id) ata_id ->
  map i_key accounts = [recipient; w; a; t22_id; wtp; source; u; esc; owner] ++ more ->
  writable accounts esc -> writable accounts recipient -> writable accounts source -> writable accounts w ->
  incl signers more -> e_extra e l accounts (skipn 9 accounts) = Ok (map (fun k => meta_r k true) signers) ->
  (forall m, a_data (l owner) = DMultisig m -> a_owner (l owner) = t22_id) -> owner_acts accounts l t22_id owner signers ->
  holder l t22_id u source owner ts -> open_account l source -> 0 < n -> n <= t_amount ts -> source <> esc ->
  transferable l t22_id u mu ->
  token_account l esc t22_id te -> t_state te = Initialized ->
  mint_account l w wtp mw -> token_account l recipient wtp tr -> t_mint tr = w -> t_state tr = Initialized ->
  (ever (no_permanent_delegate u) past l \/ supply l w + n < two64) ->
  (native_mint u -> lamports l esc + lamports l source < two64) ->
  exists l', succeeds e accounts (Wrap n) l l'.
Proof.
  intros e0 e past l u wtp accounts more signers n recipient source owner mu mw ts tr te H Uc C Tw w a esc D1 D2 D3 K W1 W2 W3 W4 In Ex Ml Ac Ho Op P1 P2 Ne Tr Te Ts Mw Tr2 T2 T3 Pd Na.
  assert (T22 : spl_or_t22 t22_id) by (right; reflexivity).
  assert (Fe : ext_fee mu <> None -> List.In XtTransferFeeAmount (map acct_ext_type_of (t_exts te))).
  { exact (fee_fits e0 e past l u wtp mu te esc H Uc C eq_refl (proj1 Tr) (proj1 (proj2 Te))). }
  exact (C36_wrappable e0 e past l u t22_id wtp accounts more signers n recipient source owner mu mw ts tr te H C Tw T22 D1 D2 D3 K W1 W2 W3 W4 In Ex Ml Ac Ho Op P1 P2 Ne Tr Te Ts Fe Mw Tr2 T2 T3 Pd Na).
Qed.
Print Assumptions C36_wrappable_uncloseable.

(** With the fee-bearing mint of [fee_story]: Alice redeems 20 of her 39 wrapped tokens, or wraps 25 more. *)
Definition fees : list cmd := fee_story ++ fee_story2.
Lemma fees_np : ever (no_permanent_delegate d_u) (past_of fees) (now_of fees).
Proof.
  assert (H : forallb (fun x => match a_data (x d_u) with DMint m => match ext_permanent_delegate m with None => true | Some _ => false end | _ => true end)
                (now_of fees :: past_of fees) = true) by (vm_compute; reflexivity).
  rewrite forallb_forall in H. intros x Hx m (_ & D & _). specialize (H x Hx). rewrite D in H. destruct (ext_permanent_delegate m); [discriminate|reflexivity].
Qed.
Example C19_uncloseable_nonvacuous : exists l', succeeds demo_env (tx_metas (x_unwrap 20)) (Unwrap 20) (now_of fees) l'.
Proof.
  assert (S : exists ts, a_data (now_of fees d_alice_w) = DTok ts) by (eexists; vm_compute; reflexivity). destruct S as [ts Hs].
  assert (R : exists tr, a_data (now_of fees d_alice_u) = DTok tr) by (eexists; vm_compute; reflexivity). destruct R as [tr Hr].
  assert (M : exists mu, a_data (now_of fees d_u) = DMint mu) by (eexists; vm_compute; reflexivity). destruct M as [mu Hm].
  apply (C19_redeemable_uncloseable demo_env demo_env (past_of fees) (now_of fees) d_u spl_token_id (tx_metas (x_unwrap 20)) [] [] 20 d_alice_u d_alice_w d_alice mu ts tr).
  - apply played_history. vm_compute. reflexivity.
  - exact fees_np.
  - apply uncloseable_b. vm_compute. reflexivity.
  - apply same_curve_refl.
  - left; reflexivity.
  - apply demo_derivable.
  - apply demo_derivable.
  - apply demo_derivable.
  - vm_compute. reflexivity.
  - apply in_writable. vm_compute. reflexivity.
  - apply in_writable. vm_compute. reflexivity.
  - apply in_writable. vm_compute. reflexivity.
  - apply in_writable. vm_compute. reflexivity.
  - reflexivity.
  - intros x [].
  - left. split; [reflexivity|]. split; [|intros m X; exfalso; vm_compute in X; discriminate X].
    exists (meta_r d_alice true). split; [do 8 right; left; reflexivity|split; reflexivity].
  - intro l1. exists []. split; [reflexivity|intros k []].
  - revert Hs. vm_compute. intro X. inversion X; subst ts. repeat split; auto; discriminate.
  - lia.
  - revert Hs. vm_compute. intro X. inversion X; subst ts. discriminate.
  - revert Hm. vm_compute. intro X. inversion X; subst mu. repeat split; auto; intros; discriminate.
  - revert Hm. vm_compute. intro X. inversion X; subst mu. intros [Y|[]]; discriminate Y.
  - revert Hr Hm. vm_compute. intros X Y. inversion X; subst tr. inversion Y; subst mu. repeat split; auto; try discriminate; intros; cbn; auto; try discriminate.
  - vm_compute. discriminate.
  - intros t X. change (a_data (now_of fees (d_esc t22_id spl_token_id)) = DTok t) in X. revert X. vm_compute. intro X. inversion X; subst t. reflexivity.
  - intros [X|X]; exfalso; vm_compute in X; discriminate X.
Qed.
Example C36_uncloseable_nonvacuous : exists l', succeeds demo_env (tx_metas (x_wrap 25)) (Wrap 25) (now_of fees) l'.
Proof.
  assert (S : exists ts, a_data (now_of fees d_alice_u) = DTok ts) by (eexists; vm_compute; reflexivity). destruct S as [ts Hs].
  assert (R : exists tr, a_data (now_of fees d_alice_w) = DTok tr) by (eexists; vm_compute; reflexivity). destruct R as [tr Hr].
  assert (E : exists te, a_data (now_of fees (d_esc t22_id spl_token_id)) = DTok te) by (eexists; vm_compute; reflexivity). destruct E as [te He].
  assert (M : exists mu, a_data (now_of fees d_u) = DMint mu) by (eexists; vm_compute; reflexivity). destruct M as [mu Hm].
  assert (W : exists mw, a_data (now_of fees (d_w spl_token_id)) = DMint mw) by (eexists; vm_compute; reflexivity). destruct W as [mw Hw].
  apply (C36_wrappable_uncloseable demo_env demo_env (past_of fees) (now_of fees) d_u spl_token_id (tx_metas (x_wrap 25)) [] [] 25 d_alice_w d_alice_u d_alice mu mw ts tr te).
  - apply played_history. vm_compute. reflexivity.
  - apply uncloseable_b. vm_compute. reflexivity.
  - apply same_curve_refl.
  - left; reflexivity.
  - apply demo_derivable.
  - apply demo_derivable.
  - apply demo_derivable.
  - vm_compute. reflexivity.
  - apply in_writable. vm_compute. reflexivity.
  - apply in_writable. vm_compute. reflexivity.
  - apply in_writable. vm_compute. reflexivity.
  - apply in_writable. vm_compute. reflexivity.
  - intros x [].
  - reflexivity.
  - intros m X. exfalso. vm_compute in X. discriminate X.
  - left. split; [reflexivity|]. split; [|intros m X; exfalso; vm_compute in X; discriminate X].
    exists (meta_r d_alice true). split; [do 8 right; left; reflexivity|split; reflexivity].
  - revert Hs. vm_compute. intro X. inversion X; subst ts. repeat split; auto; discriminate.
  - intros t X. change (a_data (now_of fees d_alice_u) = DTok t) in X. revert X. vm_compute. intro X. inversion X; subst t. split; [reflexivity|]. intros [Y|[]]; discriminate Y.
  - lia.
  - revert Hs. vm_compute. intro X. inversion X; subst ts. discriminate.
  - vm_compute. discriminate.
  - revert Hm. vm_compute. intro X. inversion X; subst mu. repeat split; auto; intros; discriminate.
  - revert He. vm_compute. intro X. inversion X; subst te. repeat split; auto; discriminate.
  - revert He. vm_compute. intro X. inversion X; subst te. reflexivity.
  - revert Hw. vm_compute. intro X. inversion X; subst mw. repeat split; auto; discriminate.
  - revert Hr. vm_compute. intro X. inversion X; subst tr. repeat split; auto; discriminate.
  - revert Hr. vm_compute. intro X. inversion X; subst tr. reflexivity.
  - revert Hr. vm_compute. intro X. inversion X; subst tr. reflexivity.
  - left. exact fees_np.
  - intros [X|X]; exfalso; vm_compute in X; discriminate X.
Qed.
