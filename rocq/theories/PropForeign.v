(** * PropForeign.v — C71: metadata found through a mint's metadata pointer. *)
From Verif Require Import Base Codec State Pda TokenProg Cpi Ata Meta Processor Builders Tac Demo Demo2 PdaProofs TokProofs ProcProofs Spec SpecLemmas HistorySpec
  InvState InvHist SyncProofs SyncSpec DemoHist PropSync PropHistory PropRedeem PropReach PropReach2 CliSpec PropCliSync PropErrors TestMetadataOwner.

(** Token mint and metadata name each other, as clients are told to check before they believe a mint's metadata. *)
Definition mutual (l : ledger) (w : pubkey) (t : token_metadata) : Prop :=
  exists m, mint_account l w t22_id m /\ pointer_of m (Some w) /\ own_metadata m t /\ tm_mint t = w.

Lemma pointer_other m : ext_pointer m = find_map (fun e => match e with MxMetadataPointer a b => Some (a, b) | _ => None end) (other_extensions m).
Proof.
  unfold ext_pointer, other_extensions. induction (m_exts m) as [|x r IH]; [reflexivity|]. cbn [find_map filter].
  destruct x as [ | | | | | | | | | | |ty ? ? ?]; try first [exact IH|reflexivity].
  assert (Q : (1000 + ty =? 19) = false) by (apply N.eqb_neq; lia). cbn [mint_ext_kind]. rewrite Q. exact IH.
Qed.
(** After a sync the wrapped mint and its metadata name each other. *)
Lemma synced_mutual e0 e accounts l l' w a u p :
  reachable e0 l -> same_curve e0 e -> keys_are accounts [w; a; u; p] -> succeeds e accounts SyncMetadataToToken2022 l l' ->
  exists src t', authentic_metadata e l u src /\ mutual l' w t' /\
    copied src t'.
Proof.
  intros R C K S. destruct (C24_sync_copies_reachable e0 e accounts l l' w a u p R C K S) as (Ew & Ea & src & m' & t' & A1 & A2 & A3 & A4 & A5 & A6 & A7 & _ & A9).
  exists src, t'. split; [exact A1|]. split; [|split; [exact A4|split; [exact A5|split; [exact A6|exact A7]]]].
  exists m'. split; [exact A2|]. split; [|split; [exact A3|exact A9]].
  destruct (C25_confined_reachable e0 e accounts l l' w a u p R C K S) as ((m & m2 & M & M2 & Sc & _) & _).
  assert (E2 : m2 = m'). { destruct A2 as (_ & D1 & _). destruct M2 as (_ & D2 & _). rewrite D1 in D2. injection D2 as Q. exact (eq_sym Q). }
  subst m2. destruct Sc as (_ & _ & _ & _ & Ox). unfold pointer_of. rewrite pointer_other, Ox, <- pointer_other.
  destruct (reach_wrapped e0 e l u t22_id R C) as [(U & _)|(_ & m0 & (_ & D0 & _) & _ & _ & X)].
  - destruct M as (_ & D & _). rewrite <- Ew, D in U. discriminate U.
  - rewrite <- Ew in D0, X. destruct M as (_ & D & _). rewrite D in D0. injection D0 as E0. subst m0. exists (Some (authority_of e w)).
    unfold ext_pointer. destruct X as [[(Q & _)|(_ & E)]|(_ & t0 & E & _)]; [discriminate Q| |]; rewrite E; reflexivity.
Qed.

Lemma pointed_no_error e l u mu k op t err : mint_account l u t22_id mu -> pointer_of mu (Some k) -> k <> u ->
  ((exists x, metaplex_account l k x) \/
   (a_owner (l k) <> t22_id /\ a_owner (l k) <> mpl_id /\ op = Some (a_owner (l k)) /\ e_emit e (a_owner (l k)) k (l k) = Ok (Some (a_owner (l k), Ok t)))) ->
  ~ source_error e l u (Some k) op err.
Proof.
  intros Mu Pt Nk A H.
  assert (Ou : a_owner (l u) = t22_id) by exact (proj1 Mu).
  assert (One : forall m, mint_account l u t22_id m -> m = mu).
  { intros m (_ & D & _). destruct Mu as (_ & D' & _). rewrite D in D'. injection D' as Q. exact Q. }
  assert (Pk : forall m x, mint_account l u t22_id m -> pointer_of m x -> x = Some k).
  { intros m x M P. rewrite (One m M) in P. exact (pointer_fun mu x (Some k) P Pt). }
  assert (Me : a_owner (l k) = mpl_id -> exists x, metaplex_account l k x) by (intro Q; destruct A as [A|(_ & A & _)]; [exact A|contradiction]).
  assert (Fo : a_owner (l k) <> mpl_id -> op = Some (a_owner (l k)) /\ e_emit e (a_owner (l k)) k (l k) = Ok (Some (a_owner (l k), Ok t))).
  { intro Q. destruct A as [(x & X & _)|(_ & _ & A)]; [contradiction|exact A]. }
  inversion H as [s o N1 N2|s o er E1 E2|m s o er M P E2|m s o M P|m s o M P E2|m b o M P Nb|m b k' o M P Nb Nk'|m b o M P Nb E2|m b o M P Nb E2 E3|m b M P Nb E2 E3|m b q M P Nb E2 E3 E4|m b er M P Nb E2 E3 E4|s o er E1 E2]; subst.
  - contradiction.
  - rewrite E1 in Ou. discriminate Ou.
  - destruct Pt as [au Pt]. rewrite (One m M) in P. unfold no_pointer in P. rewrite P in Pt. discriminate Pt.
  - specialize (Pk m _ M P). discriminate Pk.
  - specialize (Pk m _ M P). injection Pk as Q. congruence.
  - specialize (Pk m _ M P). injection Pk as Q. congruence.
  - destruct A as [(x & X & _)|(N & _)]; [rewrite X in E2; discriminate E2|contradiction].
  - destruct (Me E2) as (x & _ & D). exact (E3 x D).
  - destruct (Fo E3) as (Q & _). discriminate Q.
  - destruct (Fo E3) as (Q & _). injection Q as Q. contradiction.
  - destruct (Fo E3) as (_ & Q). destruct E4 as [E4|[E4|[[E4|(q & r & E4 & N)] _]]]; rewrite Q in E4; try discriminate E4. injection E4 as Q1 _. congruence.
  - destruct Mu as (_ & D & I). rewrite D in E2. inversion E2; congruence.
Qed.

(** C71: a Token-2022 mint whose metadata is kept by a third-party program - the repository's test program -: anybody can
    sync, and the wrapped mint then shows exactly the metadata that program keeps; nothing else changes. *)
Theorem C71_foreign_copied : forall e0 e accounts l u mu k p m t,
  reachable e0 l -> same_curve e0 e -> (forall x y, e_realloc_ok e x y = true) ->
  let w := wrapped_mint_of e u t22_id in let a := authority_of e w in
  keys_are accounts [w; a; u; t22_id; k; p] -> sync_addresses_exist e u t22_id -> writable accounts w -> ~ unallocated l w ->
  mint_account l u t22_id mu -> pointer_of mu (Some k) -> k <> u ->
  (* the account belongs to the third-party program and holds metadata *)
  a_owner (l k) = p -> ~ spl_or_t22 p -> p <> mpl_id -> runs_test_emit e p -> k <> no_return_id ->
  mint_data l k m -> own_metadata m t -> tm_len t <= 1024 ->
  exists l' t', succeeds e accounts SyncMetadataToToken2022 l l' /\ mutual l' w t' /\
    copied t t' /\
    lamports l' w = lamports l w /\ forall k', k' <> w -> l' k' = l k'.
Proof.
  intros e0 e accounts l u mu k p m t R C Re w a K Ad W Nu Mu Pt Nk O Np Nm Em Nr Mk Ot Len.
  assert (EM : e_emit e p k (l k) = Ok (Some (p, Ok t))).
  { rewrite Em. unfold test_emit. destruct (pk_eqb k no_return_id) eqn:Q; [apply pk_eqb_eq in Q; contradiction|]. destruct Mk as (D & Im).
    rewrite D. cbn [pod_unpack_mint]. rewrite Im. cbn [bind]. unfold own_metadata in Ot. rewrite Ot. cbn [of_option bind].
    rewrite bind_guard_true by (apply N.leb_le; exact Len). reflexivity. }
  assert (Nt : p <> t22_id) by (intro Q; apply Np; right; exact Q).
  assert (AM : authentic_metadata e l u t) by (refine (am_foreign e l u mu k p t Mu Pt Nk O Nt Nm EM)).
  assert (N4 : nth_error (map i_key accounts) 4 = Some k /\ nth_error (map i_key accounts) 5 = Some p).
  { destruct K as [more K]. rewrite K. split; reflexivity. }
  destruct N4 as [N4 N5].
  assert (K4 : keys_are accounts [w; a; u; t22_id]).
  { destruct K as [more K]. exists (k :: p :: more). rewrite K. reflexivity. }
  destruct (C24_sync_live_reachable e0 e accounts l u R C K4 Ad W Nu Re) as [l' S].
  { intros err SE. rewrite N4, N5 in SE. revert SE. apply (pointed_no_error e l u mu k (Some p) t err Mu Pt Nk). right. rewrite O. split; [exact Nt|]. split; [exact Nm|]. split; [reflexivity|exact EM]. }
  destruct (synced_mutual e0 e accounts l l' w a u t22_id R C K4 S) as (src & t' & A1 & A2 & A3).
  rewrite (C26_unique e l u src t A1 AM) in A3.
  destruct (C25_confined_reachable e0 e accounts l l' w a u t22_id R C K4 S) as (_ & L & F).
  exists l', t'. split; [exact S|]. split; [exact A2|]. split; [exact A3|]. split; [exact L|exact F].
Qed.
Print Assumptions C71_foreign_copied.

Lemma all_zero_Forall bs : all_zero bs = true <-> Forall (eq 0) bs.
Proof.
  rewrite <- zeros_all, Forall_forall. split; intros H b Hb; symmetry; exact (H b Hb) || (exact (eq_sym (H b Hb))).
Qed.
(** What the third-party program cannot answer about an account. *)
Inductive no_answer (l : ledger) (k : pubkey) : error -> Prop :=
| na_silent : k = no_return_id -> no_answer l k (ETw ExternalProgramReturnedNoData)
| na_unreadable err : k <> no_return_id -> unreadable_mint (a_data (l k)) err -> no_answer l k err
| na_none m : k <> no_return_id -> mint_data l k m -> (forall t, ~ own_metadata m t) -> no_answer l k (ETok ExtensionNotFound)
| na_large m t : k <> no_return_id -> mint_data l k m -> own_metadata m t -> 1024 < tm_len t -> no_answer l k EPanic.
Lemma no_answer_emit l k p err : no_answer l k err ->
  test_emit p k (l k) = Err err \/ (test_emit p k (l k) = Ok None /\ err = ETw ExternalProgramReturnedNoData).
Proof.
  intros [Q|er N U|m N (D & I) O|m t N (D & I) O L]; unfold test_emit.
  - right. rewrite Q, pk_eqb_refl. split; reflexivity.
  - left. rewrite (proj2 (pk_eqb_neq k no_return_id) N). inversion U as [m I|bs Z Ln|bs NZ|d N1 N2].
    + cbn [pod_unpack_mint]. rewrite I. reflexivity.
    + cbn [pod_unpack_mint]. rewrite (proj2 (all_zero_Forall bs) Z). assert (X : (mint_base_len <=? N.of_nat (length bs)) = true) by (apply N.leb_le; change mint_base_len with 82; lia). rewrite X. reflexivity.
    + cbn [pod_unpack_mint]. destruct (all_zero bs && (mint_base_len <=? N.of_nat (length bs))) eqn:X; [|reflexivity]. exfalso. apply NZ. apply andb_true_iff in X. destruct X as [X1 X2].
      split; [apply all_zero_Forall; exact X1|]. apply N.leb_le in X2. change mint_base_len with 82 in X2. lia.
    + destruct (a_data (l k)); try reflexivity; exfalso; [eapply N2; reflexivity|eapply N1; reflexivity].
  - left. rewrite (proj2 (pk_eqb_neq k no_return_id) N), D. cbn [pod_unpack_mint]. rewrite I. cbn [bind].
    destruct (ext_metadata m) as [t|] eqn:E; [exfalso; exact (O t E)|reflexivity].
  - left. rewrite (proj2 (pk_eqb_neq k no_return_id) N), D. cbn [pod_unpack_mint]. rewrite I. cbn [bind]. unfold own_metadata in O. rewrite O. cbn [of_option bind].
    assert (X : (tm_len t <=? max_return_data) = false) by (apply N.leb_gt; exact L). rewrite X. reflexivity.
Qed.
(** C71: a third-party program that has no metadata for the account, cannot fit it into its answer, or does not answer, makes
    both syncs fail, with its error or ExternalProgramReturnedNoData; the wrapped mint keeps what it shows. *)
Theorem C71_foreign_refused : forall e accounts l u mu k p err,
  mint_account l u t22_id mu -> pointer_of mu (Some k) -> k <> u -> a_owner (l k) = p -> ~ spl_or_t22 p -> p <> mpl_id ->
  runs_test_emit e p -> no_answer l k err ->
  (let w := wrapped_mint_of e u t22_id in
   keys_are accounts [w; authority_of e w; u; t22_id; k; p] -> sync_addresses_exist e u t22_id -> a_owner (l w) = t22_id ->
   fails e accounts SyncMetadataToToken2022 l err) /\
  (forall sy rn, let w := wrapped_mint_of e u spl_token_id in
   keys_are accounts [metaplex_of e w; authority_of e w; w; u; mpl_id; sy; rn; k; p] -> sync_addresses_exist e u spl_token_id -> derivable e (metaplex_seeds w) mpl_id ->
   a_owner (l w) = spl_token_id -> fails e accounts SyncMetadataToSplToken l err).
Proof.
  intros e accounts l u mu k p err Mu Pt Nk O Np Nm R Na.
  assert (Nt : p <> t22_id) by (intro Q; apply Np; right; exact Q).
  assert (SE : source_error e l u (Some k) (Some p) err).
  { rewrite <- O in Nt, Nm |- *. apply (se_foreign e l u mu k err Mu Pt Nk Nt Nm). rewrite O. rewrite R.
    destruct (no_answer_emit l k p err Na) as [Q|[Q E]]; [left; exact Q|]. right. right. split; [left; exact Q|exact E]. }
  split.
  - intros w [more K] Ad Ow. apply (C26_refused_t22 e accounts l w (authority_of e w) u err); try reflexivity; try assumption.
    + exists (k :: p :: more). rewrite K. reflexivity.
    + rewrite K. exact SE.
  - intros sy rn w [more K] Ad Dm Ow. apply (C26_refused_spl e accounts l (metaplex_of e w) w (authority_of e w) u sy rn err); try reflexivity; try assumption.
    + exists (k :: p :: more). rewrite K. reflexivity.
    + rewrite K. exact SE.
Qed.
Print Assumptions C71_foreign_refused.

(** C71, refuted expectation: the metadata a wrapped mint shows is that of a token that claims it, not necessarily the
    token's own.  If a Token-2022 mint's pointer names the Metaplex account of ANY token, anybody can sync it, and then the
    wrapped mint - unlike the unwrapped mint - passes the check that mint and metadata name each other. *)
Theorem C71_impersonation_refuted : forall e0 e accounts l u mu k x,
  reachable e0 l -> same_curve e0 e -> (forall a b, e_realloc_ok e a b = true) ->
  let w := wrapped_mint_of e u t22_id in let a := authority_of e w in
  keys_are accounts [w; a; u; t22_id; k] -> sync_addresses_exist e u t22_id -> writable accounts w -> ~ unallocated l w ->
  mint_account l u t22_id mu -> pointer_of mu (Some k) -> k <> u ->
  metaplex_account l k x ->      (* whichever mint [mx_mint x] it belongs to *)
  exists l' t', succeeds e accounts SyncMetadataToToken2022 l l' /\ mutual l' w t' /\
    tm_name t' = mx_name x /\ tm_symbol t' = mx_symbol x /\ tm_uri t' = mx_uri x.
Proof.
  intros e0 e accounts l u mu k x R C Re w a K Ad W Nu Mu Pt Nk Mx.
  assert (AM : authentic_metadata e l u (from_metaplex e u x)) by exact (am_metaplex e l u mu k x Mu Pt Nk Mx).
  assert (N4 : nth_error (map i_key accounts) 4 = Some k) by (destruct K as [more K]; rewrite K; reflexivity).
  assert (K4 : keys_are accounts [w; a; u; t22_id]) by (destruct K as [more K]; exists (k :: more); rewrite K; reflexivity).
  destruct (C24_sync_live_reachable e0 e accounts l u R C K4 Ad W Nu Re) as [l' S].
  { intro err. rewrite N4. apply (pointed_no_error e l u mu k _ (from_metaplex e u x) err Mu Pt Nk). left. exists x. exact Mx. }
  destruct (synced_mutual e0 e accounts l l' w a u t22_id R C K4 S) as (src & t' & A1 & A2 & A3).
  rewrite (C26_unique e l u src _ A1 AM) in A3. destruct A3 as (B1 & B2 & B3 & _).
  exists l', t'. split; [exact S|]. split; [exact A2|]. split; [exact B1|]. split; [exact B2|exact B3].
Qed.
Print Assumptions C71_impersonation_refuted.
(** Likewise for SPL Token wrapped mints: their Metaplex account names the wrapped mint and shows the other token's metadata. *)
Theorem C71_impersonation_spl_refuted : forall e accounts l l' md a w u mp sy rn mu k x,
  keys_are accounts [md; a; w; u; mp; sy; rn] -> succeeds e accounts SyncMetadataToSplToken l l' ->
  mint_account l u t22_id mu -> pointer_of mu (Some k) -> k <> u -> metaplex_account l k x -> no_data l md ->
  md = metaplex_of e w /\ exists x', metaplex_account l' md x' /\ mx_mint x' = w /\ 
    padded 32 (mx_name x) (mx_name x') /\ padded 10 (mx_symbol x) (mx_symbol x') /\ padded 200 (mx_uri x) (mx_uri x').
Proof.
  intros e accounts l l' md a w u mp sy rn mu k x K S Mu Pt Nk Mx Nd.
  destruct (C28_spl e accounts l l' md a w u mp sy rn K S) as ((_ & _ & _ & Em & _) & _ & src & d & A & Cv & [B|(Hd & _)]).
  - split; [exact Em|]. destruct B as (_ & _ & _ & m & x' & _ & _ & X & Sh & _ & _ & _ & Mi & _). exists x'. split; [exact X|]. split; [exact Mi|].
    rewrite (C26_unique e l u src _ A (am_metaplex e l u mu k x Mu Pt Nk Mx)) in Cv.
    destruct Cv as (c1 & c2 & c3 & _). destruct Sh as (s1 & s2 & s3 & _). rewrite c1 in s1. rewrite c2 in s2. rewrite c3 in s3. split; [exact s1|]. split; [exact s2|exact s3].
  - exfalso. exact (Hd Nd).
Qed.
Print Assumptions C71_impersonation_spl_refuted.

(** ** Concrete cases *)
Definition f_env : env :=
  mkEnv (fun _ _ => true) (fun n => n * 10) 5 false
        (fun _ _ _ l => Ok l) (fun _ _ _ => Ok []) (fun _ _ _ => Ok [])
        (fun _ l _ => Ok l) test_emit (fun _ _ => true) (fun s => str_len s)
        (fun b => PkRaw (1000 + from_le b)) (fun _ => true) 100 None
        (fun _ => "K"%string) (fun _ => "ts"%string) (fun _ => "cr"%string) (fun _ => "co"%string) (fun _ => "us"%string)
        (fun _ => "cd"%string) (fun _ => "pc"%string)
        (fun _ => Some [mkCreator d_bob false 100]) (fun _ => Some s_coll) (fun _ => Some s_uses).
Definition f_ptr (k : pubkey) : mint_ext := MxMetadataPointer (Some d_mintauth) (Some k).
Definition f_story (k : pubkey) : list cmd :=
  [ CFund (d_w t22_id) 9000; CFund (d_b t22_id) 4000; CAlloc d_u (mint_space [f_ptr k]) 90000 t22_id;
    CTok t22_id [meta_w d_u false] (TiInitExt (f_ptr k));
    CTok t22_id [meta_w d_u false] (TiInitializeMint2 6 d_mintauth None);
    CTw i_create ].
(** The account of the third-party program, and the Metaplex account of another token, [d_real]. *)
Definition d_third : pubkey := PkRaw 703.
Definition d_third_md : pubkey := PkRaw 704.
Definition d_real : pubkey := PkRaw 705.
Definition d_real_md : pubkey := metaplex_of demo_env d_real.
Definition f_tm : token_metadata := mkTM None d_u "Third" "3RD" "uri" [("k", "v")]%string.
Definition f_mint : mint := mkMint None 0 0 true None [MxTokenMetadata f_tm] 300.
Definition real_mx : mpl_metadata :=
  mkMpl 4 d_bob d_real "Famous" "F" "uri" 0 None true true None None None None None None.
Definition kept : ledger := upd (now_of (f_story d_third_md)) d_third_md (mkAcc 5000 (DMint f_mint) d_third).
Definition claimed : ledger := upd (now_of (f_story d_real_md)) d_real_md (mkAcc 5000 (DMpl real_mx) mpl_id).
Lemma kept_reachable : reachable demo_env kept.
Proof.
  exists (now_of (f_story d_third_md) :: past_of (f_story d_third_md)). refine (h_step demo_env _ _ AWorld _ (played_history (f_story d_third_md) _) _); [vm_compute; reflexivity|].
  constructor. apply world_upd.
  - assert (Q : a_owner (now_of (f_story d_third_md) d_third_md) = system_id) by (vm_compute; reflexivity). rewrite Q. intros [X|[X|X]]; discriminate X.
  - intros [X|X]; discriminate X.
  - intros [X|X]; discriminate X.
  - intros [X|[X|X]]; discriminate X.
Qed.
Lemma claimed_reachable : reachable demo_env claimed.
Proof.
  exists (now_of (f_story d_real_md) :: past_of (f_story d_real_md)). refine (h_step demo_env _ _ AWorld _ (played_history (f_story d_real_md) _) _); [vm_compute; reflexivity|].
  constructor. apply world_upd.
  - assert (Q : a_owner (now_of (f_story d_real_md) d_real_md) = system_id) by (vm_compute; reflexivity). rewrite Q. intros [X|[X|X]]; discriminate X.
  - intros [X|X]; vm_compute in X; discriminate X.
  - intros [X|X]; vm_compute in X; discriminate X.
  - intros [X|[X|X]]; discriminate X.
Qed.
Lemma f_mint_u k l : l d_u = now_of (f_story k) d_u ->
  (exists mu, a_data (now_of (f_story k) d_u) = DMint mu /\ a_owner (now_of (f_story k) d_u) = t22_id /\ m_init mu = true /\ ext_pointer mu = Some (Some d_mintauth, Some k)) ->
  exists mu, mint_account l d_u t22_id mu /\ pointer_of mu (Some k).
Proof.
  intros E (mu & D & O & I & P). exists mu. split; [unfold mint_account, mint_data; rewrite E; split; [exact O|split; [exact D|exact I]]|]. exists (Some d_mintauth). exact P.
Qed.
Definition f_sync (k : pubkey) (p : option pubkey) : tw_instruction := build_sync_to_token_2022 tw_id (d_w t22_id) (d_a t22_id) d_u (Some k) p.
Lemma f_derivable s p : derivable f_env s p.
Proof. exact (demo_derivable s p). Qed.
Example C71_foreign_copied_nonvacuous : exists l' t', succeeds f_env (tx_metas (f_sync d_third_md (Some d_third))) SyncMetadataToToken2022 kept l' /\
  mutual l' (d_w t22_id) t' /\ copied f_tm t'.
Proof.
  destruct (f_mint_u d_third_md kept) as (mu & M & P).
  { unfold kept. rewrite upd_other by discriminate. reflexivity. }
  { eexists. vm_compute. repeat split; reflexivity. }
  assert (K : kept d_third_md = mkAcc 5000 (DMint f_mint) d_third) by (unfold kept; apply upd_same).
  destruct (C71_foreign_copied demo_env f_env (tx_metas (f_sync d_third_md (Some d_third))) kept d_u mu d_third_md d_third f_mint f_tm) as (l' & t' & A & B & C & _).
  - exact kept_reachable.
  - intros s p; reflexivity.
  - reflexivity.
  - exists []. vm_compute. reflexivity.
  - split; apply f_derivable.
  - apply in_writable. vm_compute. reflexivity.
  - intros [X _]. vm_compute in X. discriminate X.
  - exact M.
  - exact P.
  - discriminate.
  - rewrite K. reflexivity.
  - intros [X|X]; discriminate X.
  - discriminate.
  - intros k a. reflexivity.
  - discriminate.
  - split; [rewrite K|]; reflexivity.
  - reflexivity.
  - vm_compute. discriminate.
  - exists l', t'. split; [exact A|]. split; [exact B|exact C].
Qed.
(** The same account without metadata. *)
Definition empty_kept : ledger := upd kept d_third_md (mkAcc 5000 (DMint (mkMint None 0 0 true None [] 300)) d_third).
Example C71_foreign_refused_nonvacuous : fails f_env (tx_metas (f_sync d_third_md (Some d_third))) SyncMetadataToToken2022 empty_kept (ETok ExtensionNotFound).
Proof.
  destruct (f_mint_u d_third_md empty_kept) as (mu & M & P).
  { unfold empty_kept, kept. rewrite !upd_other by discriminate. reflexivity. }
  { eexists. vm_compute. repeat split; reflexivity. }
  assert (K : empty_kept d_third_md = mkAcc 5000 (DMint (mkMint None 0 0 true None [] 300)) d_third) by (unfold empty_kept; apply upd_same).
  destruct (C71_foreign_refused f_env (tx_metas (f_sync d_third_md (Some d_third))) empty_kept d_u mu d_third_md d_third (ETok ExtensionNotFound)) as [A _].
  - exact M.
  - exact P.
  - discriminate.
  - rewrite K. reflexivity.
  - intros [X|X]; discriminate X.
  - discriminate.
  - intros k a. reflexivity.
  - apply (na_none empty_kept d_third_md (mkMint None 0 0 true None [] 300)); [discriminate|split; [rewrite K|]; reflexivity|intros t X; discriminate X].
  - apply A; [exists []; vm_compute; reflexivity|split; apply f_derivable|vm_compute; reflexivity].
Qed.
(** Somebody's mint points at the famous token's Metaplex account; its wrapped mint becomes "Famous". *)
Example C71_impostor : mx_mint real_mx <> d_u /\ exists l' t', succeeds f_env (tx_metas (f_sync d_real_md None)) SyncMetadataToToken2022 claimed l' /\
  mutual l' (d_w t22_id) t' /\ tm_name t' = "Famous"%string /\ tm_symbol t' = "F"%string.
Proof.
  split; [discriminate|].
  destruct (f_mint_u d_real_md claimed) as (mu & M & P).
  { unfold claimed. rewrite upd_other by (vm_compute; discriminate). reflexivity. }
  { eexists. vm_compute. repeat split; reflexivity. }
  assert (K : claimed d_real_md = mkAcc 5000 (DMpl real_mx) mpl_id) by (unfold claimed; apply upd_same).
  destruct (C71_impersonation_refuted demo_env f_env (tx_metas (f_sync d_real_md None)) claimed d_u mu d_real_md real_mx) as (l' & t' & A & B & C & D & _).
  - exact claimed_reachable.
  - intros s p; reflexivity.
  - reflexivity.
  - exists []. vm_compute. reflexivity.
  - split; apply f_derivable.
  - apply in_writable. vm_compute. reflexivity.
  - intros [X _]. vm_compute in X. discriminate X.
  - exact M.
  - exact P.
  - vm_compute. discriminate.
  - split; rewrite K; reflexivity.
  - exists l', t'. split; [exact A|]. split; [exact B|]. split; [exact C|exact D].
Qed.
Definition f_story_spl (k : pubkey) : list cmd :=
  [ CFund (d_w spl_token_id) 9000; CFund (d_b spl_token_id) 4000; CAlloc d_u (mint_space [f_ptr k]) 90000 t22_id;
    CTok t22_id [meta_w d_u false] (TiInitExt (f_ptr k));
    CTok t22_id [meta_w d_u false] (TiInitializeMint2 6 d_mintauth None);
    CTw x_create; CFund (d_a spl_token_id) 300 ].
Definition claimed_spl : ledger := upd (now_of (f_story_spl d_real_md)) d_real_md (mkAcc 5000 (DMpl real_mx) mpl_id).
Definition f_sync_spl : tw_instruction :=
  build_sync_to_spl_token tw_id (metaplex_of f_env (d_w spl_token_id)) (d_a spl_token_id) (d_w spl_token_id) d_u (Some d_real_md) None.
Example C71_impostor_spl : exists l' x', succeeds f_env (tx_metas f_sync_spl) SyncMetadataToSplToken claimed_spl l' /\
  metaplex_account l' (metaplex_of f_env (d_w spl_token_id)) x' /\ mx_mint x' = d_w spl_token_id /\ padded 32 "Famous" (mx_name x').
Proof.
  assert (S : exists l', succeeds f_env (tx_metas f_sync_spl) SyncMetadataToSplToken claimed_spl l').
  { assert (B : match outcome f_env (tx_metas f_sync_spl) SyncMetadataToSplToken claimed_spl with Ok _ => true | Err _ => false end = true) by (vm_compute; reflexivity).
    unfold succeeds. destruct (outcome f_env (tx_metas f_sync_spl) SyncMetadataToSplToken claimed_spl) as [l'|]; [exists l'; reflexivity|discriminate B]. }
  destruct S as [l' S].
  assert (M : exists mu, a_data (now_of (f_story_spl d_real_md) d_u) = DMint mu /\ a_owner (now_of (f_story_spl d_real_md) d_u) = t22_id /\ m_init mu = true /\ ext_pointer mu = Some (Some d_mintauth, Some d_real_md))
    by (eexists; vm_compute; repeat split; reflexivity).
  destruct M as (mu & D & O & I & P).
  assert (E : claimed_spl d_u = now_of (f_story_spl d_real_md) d_u) by (unfold claimed_spl; apply upd_other; vm_compute; discriminate).
  assert (K : claimed_spl d_real_md = mkAcc 5000 (DMpl real_mx) mpl_id) by (unfold claimed_spl; apply upd_same).
  destruct (C71_impersonation_spl_refuted f_env (tx_metas f_sync_spl) claimed_spl l' (metaplex_of f_env (d_w spl_token_id)) (d_a spl_token_id) (d_w spl_token_id) d_u mpl_id system_id rent_sysvar_id mu d_real_md real_mx)
    as (_ & x' & A & B & C & _).
  - exists [d_real_md]. vm_compute. reflexivity.
  - exact S.
  - unfold mint_account, mint_data. rewrite E. split; [exact O|]. split; [exact D|exact I].
  - exists (Some d_mintauth). exact P.
  - vm_compute. discriminate.
  - split; rewrite K; reflexivity.
  - vm_compute. reflexivity.
  - exists l', x'. split; [exact S|]. split; [exact A|]. split; [exact B|exact C].
Qed.
