(** * SyncProofs2.v — source resolution, idempotency, SyncMetadataToSplToken, SetCanonicalPointer. *)
From Verif Require Import Base Codec State Pda TokenProg Cpi Meta Processor Tac CodecProofs PdaProofs TokProofs FrameProofs ProcProofs Spec SpecLemmas MapProofs SyncProofs CreateProofs.

(** ** Where metadata comes from *)
Lemma metaplex_to_inv e l u md t :
  metaplex_to_token_2022_metadata e l u md = Ok t -> exists x, a_data (l md) = DMpl x /\ t = from_metaplex e u x.
Proof.
  unfold metaplex_to_token_2022_metadata. destruct (a_data (l md)); try discriminate. intro H; inversion H. eauto.
Qed.
Lemma read_metaplex_inv e l u src t :
  read_metaplex_for_mint e l u src = Ok t ->
  exists x, metaplex_account l (metaplex_of e u) x /\ t = from_metaplex e u x.
Proof.
  unfold read_metaplex_for_mint. intro H. inv_ok. apply metaplex_find_pda_ok in E1.
  apply metaplex_to_inv in H. destruct H as (x & Hx & ->). rewrite E2, E1 in *. exists x. split; [split; assumption|reflexivity].
Qed.
Lemma extract_authentic e c l u src op t :
  extract_token_metadata e c l u src op = Ok t -> authentic_metadata e l u t.
Proof.
  unfold extract_token_metadata. destruct (pk_eqb (a_owner (l u)) t22_id) eqn:E2.
  - apply pk_eqb_eq in E2. unfold resolve_token_2022_source_metadata. intro H.
    apply bind_ok in H. destruct H as [m [Hm H]]. apply pod_unpack_mint_inv in Hm.
    assert (MA : mint_account l u t22_id m) by (split; assumption).
    destruct (ext_pointer m) as [[au addr]|] eqn:Ep.
    + apply bind_ok in H. destruct H as [a [Ha H]]. apply of_option_ok in Ha. subst addr.
      assert (P : pointer_of m (Some a)) by (exists au; exact Ep).
      destruct (pk_eqb a u) eqn:Eau.
      * apply pk_eqb_eq in Eau. subst a. inv_ok. eapply am_self; eauto.
      * apply pk_eqb_neq in Eau. apply bind_ok in H. destruct H as [md [_ H]].
        apply bind_ok in H. destruct H as [[] [Hk H]]. apply guard_ok, pk_eqb_eq in Hk. rewrite Hk in H.
        destruct (pk_eqb (a_owner (l a)) t22_id) eqn:F1; [discriminate|]. apply pk_eqb_neq in F1.
        destruct (pk_eqb (a_owner (l a)) mpl_id) eqn:F2.
        -- apply pk_eqb_eq in F2. apply metaplex_to_inv in H. destruct H as (x & Hx & ->).
           eapply am_metaplex; eauto. split; assumption.
        -- apply pk_eqb_neq in F2. unfold cpi_emit_and_decode in H. inv_ok.
           match goal with H : match ?r with Some _ => _ | None => _ end = Ok _ |- _ => destruct r as [[pk d]|]; [|discriminate] end.
           match goal with H : (if pk_eqb pk ?x then _ else _) = Ok _ |- _ => destruct (pk_eqb pk x) eqn:F3; [|discriminate] end.
           apply pk_eqb_eq in F3. rewrite H, F3, E0 in E3.
           eapply am_foreign; [eassumption|eassumption|assumption|reflexivity|assumption|assumption|exact E3].
    + apply read_metaplex_inv in H. destruct H as (x & Hx & ->). eapply am_t22_plain; eauto.
  - destruct (pk_eqb (a_owner (l u)) spl_token_id) eqn:E1; [|discriminate]. apply pk_eqb_eq in E1.
    intro H. apply read_metaplex_inv in H. destruct H as (x & Hx & ->). apply am_spl; assumption.
Qed.

Lemma mint_account_fun l k p p' m m' : mint_account l k p m -> mint_account l k p' m' -> m = m' /\ p = p'.
Proof. intros [A [B _]] [A' [B' _]]. split; congruence. Qed.
Lemma authentic_fun e l u t t' : authentic_metadata e l u t -> authentic_metadata e l u t' -> t = t'.
Proof.
  intros H H'; destruct H, H';
    repeat match goal with
    | A : mint_account l u t22_id ?m, B : mint_account l u t22_id ?m' |- _ =>
        assert_fails (constr_eq m m'); let X := fresh in destruct (mint_account_fun _ _ _ _ _ _ A B) as [X _]; subst m'; clear B
    | A : metaplex_account _ _ _ |- _ => destruct A
    | A : pointer_of _ _ |- _ => destruct A
    | A : mint_account _ _ _ _ |- _ => destruct A as [? _]
    end; unfold no_pointer, own_metadata in *; try congruence; exfalso;
    match goal with A : a_owner (l u) = spl_token_id, B : a_owner (l u) = t22_id |- _ => rewrite A in B; discriminate B end.
Qed.

(** The source does not depend on the wrapped mint. *)
Lemma extract_frame e c l l' u src op w :
  (forall k, k <> w -> l' k = l k) -> u <> w -> a_owner (l w) = t22_id -> a_owner (l' w) = t22_id ->
  (forall t, extract_token_metadata e c l u src op = Ok t -> extract_token_metadata e c l' u src op = Ok t).
Proof.
  intros Hk Huw Ho Ho' t. unfold extract_token_metadata, resolve_token_2022_source_metadata, read_metaplex_for_mint.
  rewrite (Hk u Huw).
  assert (M : forall k x, k <> w -> metaplex_to_token_2022_metadata e l u k = Ok x -> metaplex_to_token_2022_metadata e l' u k = Ok x).
  { intros k x K. unfold metaplex_to_token_2022_metadata. now rewrite (Hk k K). }
  assert (R : forall s x,
     (md <- of_option s ENotEnoughAccountKeys ;; guard (pk_eqb (a_owner (l (i_key md))) mpl_id) EInvalidAccountOwner ;;
      p <- metaplex_find_pda e u ;; guard (pk_eqb (i_key md) (fst p)) (ETw MetaplexMetadataMismatch) ;;
      metaplex_to_token_2022_metadata e l u (i_key md)) = Ok x ->
     (md <- of_option s ENotEnoughAccountKeys ;; guard (pk_eqb (a_owner (l' (i_key md))) mpl_id) EInvalidAccountOwner ;;
      p <- metaplex_find_pda e u ;; guard (pk_eqb (i_key md) (fst p)) (ETw MetaplexMetadataMismatch) ;;
      metaplex_to_token_2022_metadata e l' u (i_key md)) = Ok x).
  { intros s x. destruct s as [md|]; [|discriminate]. cbn [of_option bind]. intro H.
    destruct (pk_eqb (a_owner (l (i_key md))) mpl_id) eqn:E; [|discriminate]. 
    assert (K : i_key md <> w). { intro X. rewrite X, Ho in E. discriminate. }
    rewrite (Hk _ K), E. cbn [guard bind] in *.
    destruct (metaplex_find_pda e u) as [p|]; [|discriminate]. cbn [bind] in *.
    destruct (pk_eqb (i_key md) (fst p)); [|discriminate]. cbn [guard bind] in *. apply M; auto. }
  destruct (pk_eqb (a_owner (l u)) t22_id).
  - destruct (pod_unpack_mint (a_data (l u))) as [m|]; [|discriminate]. cbn [bind].
    destruct (ext_pointer m) as [[au addr]|]; [|apply R].
    destruct addr as [a|]; [|discriminate]. cbn [of_option bind].
    destruct (pk_eqb a u); [auto|]. destruct src as [md|]; [|discriminate]. cbn [of_option bind].
    destruct (pk_eqb (i_key md) a); [|discriminate]. cbn [guard bind].
    destruct (pk_dec (i_key md) w) as [K|K].
    + rewrite K, Ho, Ho'. cbn. discriminate.
    + rewrite (Hk _ K). destruct (pk_eqb (a_owner (l (i_key md))) t22_id); [discriminate|].
      destruct (pk_eqb (a_owner (l (i_key md))) mpl_id); [apply M; auto|].
      destruct op as [op|]; [|discriminate]. cbn [of_option bind].
      destruct (pk_eqb (i_key op) (a_owner (l (i_key md)))); [|discriminate]. cbn [guard bind].
      unfold cpi_emit_and_decode. now rewrite (Hk _ K).
  - destruct (pk_eqb (a_owner (l u)) spl_token_id); [|discriminate]. apply R.
Qed.

(** ** Syncing what is already synced *)
Lemma assoc_ext (A B : kvs) : keys A = keys B -> NoDup (keys A) -> (forall k, hm_get k A = hm_get k B) -> A = B.
Proof.
  revert B; induction A as [|[k v] A IH]; intros [|[k' v'] B] Hk Hn Hg; cbn [map fst] in *; try discriminate; [reflexivity|].
  inversion Hk; subst k'. inversion Hn; subst. f_equal.
  - specialize (Hg k). cbn [hm_get] in Hg. rewrite String.eqb_refl in Hg. congruence.
  - apply IH; auto. intro x. specialize (Hg x). cbn [hm_get] in Hg. destruct (String.eqb_spec k x) as [->|]; [|exact Hg].
    match goal with H : ~ In x (keys A) |- _ => pose proof H as N1 end.
    assert (N2 : ~ In x (keys B)) by congruence.
    apply hm_get_None in N1. apply hm_get_None in N2. congruence.
Qed.
Lemma pure_add_keys src hm A : (forall k, In k (keys src) -> In k (keys A)) -> keys (snd (pure_add src hm A)) = keys A.
Proof.
  revert hm A; induction src as [|[k v] src IH]; intros hm A H; cbn [pure_add]; [reflexivity|].
  assert (X : keys (if opt_string_eqb (hm_get k hm) (Some v) then A else assoc_set k v A) = keys A).
  { destruct (opt_string_eqb _ _); [reflexivity|]. apply assoc_set_keys_same. apply H. cbn. auto. }
  etransitivity; [apply IH|exact X]. intros x Hx. refine (eq_ind_r (fun q => In x q) _ X). apply H. simpl. auto.
Qed.
Lemma synced_fixed rank src A :
  NoDup (keys A) -> (forall k, hm_get k A = last_value k src) -> synced rank src A = A.
Proof.
  intros Hn Hg.
  assert (Hin : forall k, In k (keys src) -> In k (keys A)).
  { intros k Hk. destruct (in_dec string_dec k (keys A)) as [I|I]; [exact I|]. apply hm_get_None in I. rewrite Hg in I.
    apply last_value_None in I. contradiction. }
  assert (Hh : hm_keys rank (fst (pure_add src (hm_collect A) A)) = []).
  { apply hm_keys_nil. intro k. rewrite pure_add_hm, (hm_collect_id _ Hn), Hg. destruct (last_value k src); reflexivity. }
  assert (Hs : synced rank src A = snd (pure_add src (hm_collect A) A)).
  { unfold synced. cbv zeta. rewrite Hh. reflexivity. }
  symmetry. apply assoc_ext.
  - rewrite Hs, pure_add_keys by exact Hin. reflexivity.
  - exact Hn.
  - intro k. rewrite (synced_get rank src A k Hn). apply Hg.
Qed.

(** Metadata in sync with the source. *)
Definition in_sync (um t : token_metadata) : Prop :=
  tm_name t = tm_name um /\ tm_symbol t = tm_symbol um /\ tm_uri t = tm_uri um /\
  NoDup (keys (tm_additional t)) /\ forall k, hm_get k (tm_additional t) = last_value k (tm_additional um).
Lemma in_sync_synced e um t : NoDup (keys (tm_additional t)) -> in_sync um (synced_metadata e um t).
Proof.
  intro H. unfold in_sync, synced_metadata. cbn. repeat split; auto; [now apply synced_NoDup|].
  intro k. now apply synced_get.
Qed.
Lemma in_sync_fresh um a w :
  in_sync um (mkTM a w (tm_name um) (tm_symbol um) (tm_uri um) (pure_set (tm_additional um) [])).
Proof.
  unfold in_sync. cbn. repeat split; auto; [apply pure_set_NoDup; constructor|].
  intro k. rewrite pure_set_get. destruct (last_value k (tm_additional um)); reflexivity.
Qed.
Lemma synced_metadata_fixed e um t : in_sync um t -> synced_metadata e um t = t.
Proof.
  intros (A & B & C & D & E). unfold synced_metadata. rewrite (synced_fixed _ _ _ D E), <- A, <- B, <- C. destruct t; reflexivity.
Qed.

(** The outcome of a sync: the wrapped mint carries metadata in sync with the source. *)
Lemma process_sync_t22_result e c l l' w a u p rest :
  map i_key (c_infos c) = w :: a :: u :: p :: rest -> c_prog c = tw_id ->
  process_sync_metadata_to_token_2022 e c l = Ok l' ->
  (forall m t, pod_unpack_mint (a_data (l w)) = Ok m -> ext_metadata m = Some t -> NoDup (keys (tm_additional t))) ->
  exists um m m' t',
    extract_token_metadata e c l u (opt_hd (skipn 4 (c_infos c))) (opt_hd (skipn 5 (c_infos c))) = Ok um /\
    pod_unpack_mint (a_data (l w)) = Ok m /\ a_data (l' w) = DMint m' /\ m_init m' = true /\
    ext_metadata m' = Some t' /\ in_sync um t' /\
    a_owner (l w) = t22_id /\ a_owner (l' w) = t22_id /\ a_lamports (l' w) = a_lamports (l w) /\ (forall k, k <> w -> l' k = l k) /\
    (exists len x, m' = set_mexts x len m /\ (len = m_len m /\ x = m_exts m \/ len = mint_space x) /\
       ((exists t, ext_metadata m = Some t /\ x = replace_metadata t' (m_exts m) /\
            tm_update_authority t' = tm_update_authority t /\ tm_mint t' = tm_mint t) \/
        (ext_metadata m = None /\ x = m_exts m ++ [MxTokenMetadata t'] /\ tm_update_authority t' = Some a /\ tm_mint t' = w))).
Proof.
  intros Hk Hcp H Hnd. destruct (process_sync_t22_inv _ _ _ _ _ _ _ _ _ Hk Hcp H) as (Ep & Ho & Ew & Ea & um & m & Hum & Hm & Hcase).
  pose proof (pod_unpack_mint_inv _ _ Hm) as [Ed Ei].
  destruct Hcase as [(t & Ht & Him)|(Hnone & _ & _ & Hother & Hw)].
  - destruct (md_image_mint _ _ _ _ _ _ Ei Ht Him) as (m' & Hu & Het & Hx & Hd & _).
    pose proof (pod_unpack_mint_inv _ _ Hu) as [_ Hi'].
    exists um, m, m', (synced_metadata e um t). pose proof (in_sync_synced e um t (Hnd _ _ Hm Ht)) as Hsy.
    destruct Him as (Hother & len & Hlen & Hw).
    split; [exact Hum|]. split; [exact Hm|]. split; [exact Hd|]. split; [exact Hi'|]. split; [exact Het|]. split; [exact Hsy|].
    split; [exact Ho|]. rewrite Hw. cbn [with_data a_owner a_lamports]. split; [exact Ho|]. split; [reflexivity|]. split; [exact Hother|].
    exists len, (replace_metadata (synced_metadata e um t) (m_exts m)). split; [|split].
    + rewrite Hw in Hd. cbn in Hd. congruence.
    + destruct Hlen as [[Hl Hs]|Hl]; [left|right; exact Hl]. split; [exact Hl|]. apply replace_same. exact Hs.
    + left. exists t. repeat split; auto.
  - set (t' := mkTM (Some a) w (tm_name um) (tm_symbol um) (tm_uri um) (pure_set (tm_additional um) [])) in *.
    set (m' := set_mexts (m_exts m ++ [MxTokenMetadata t']) (mint_space (m_exts m ++ [MxTokenMetadata t'])) m) in *.
    exists um, m, m', t'. rewrite Hw. cbn [with_data a_data a_owner a_lamports].
    split; [exact Hum|]. split; [exact Hm|]. split; [reflexivity|]. split; [exact Ei|].
    split. { unfold ext_metadata, m'. cbn [set_mexts m_exts]. apply find_map_append. exact Hnone. }
    split; [apply in_sync_fresh|]. split; [exact Ho|]. split; [exact Ho|]. split; [reflexivity|]. split; [exact Hother|].
    exists (mint_space (m_exts m ++ [MxTokenMetadata t'])), (m_exts m ++ [MxTokenMetadata t']).
    split; [reflexivity|]. split; [auto|]. right. repeat split; auto.
Qed.

Lemma app_cons_neq {A} (x : list A) y : x ++ [y] <> x.
Proof. intro H. apply (f_equal (@length A)) in H. rewrite app_length in H. cbn in H. lia. Qed.

(** Twice is once. *)
Lemma process_sync_t22_twice e c l l1 l2 w a u p rest :
  map i_key (c_infos c) = w :: a :: u :: p :: rest -> c_prog c = tw_id ->
  (forall m, pod_unpack_mint (a_data (l w)) = Ok m -> m_len m = mint_space (m_exts m)) ->
  (forall m t, pod_unpack_mint (a_data (l w)) = Ok m -> ext_metadata m = Some t -> NoDup (keys (tm_additional t))) ->
  process_sync_metadata_to_token_2022 e c l = Ok l1 ->
  process_sync_metadata_to_token_2022 e c l1 = Ok l2 ->
  forall k, l2 k = l1 k.
Proof.
  intros Hk Hcp Hsz Hnd H1 H2.
  destruct (process_sync_t22_result _ _ _ _ _ _ _ _ _ Hk Hcp H1 Hnd) as (um & m & m1 & t1 & Hum & Hm & Hd1 & Hi1 & Ht1 & Hsy & Ho & Ho1 & _ & Hother & len & x & Em1 & Hlen & _).
  destruct (process_sync_t22_inv _ _ _ _ _ _ _ _ _ Hk Hcp H2) as (_ & _ & Ew & Ea & um2 & m2 & Hum2 & Hm2 & Hcase).
  assert (Hu : u <> w) by (rewrite Ew; apply unwrapped_neq_wrapped).
  rewrite (extract_frame _ _ _ _ _ _ _ _ Hother Hu Ho Ho1 _ Hum) in Hum2. inversion Hum2; subst um2; clear Hum2.
  rewrite Hd1, pod_unpack_mint_ok in Hm2 by exact Hi1. inversion Hm2; subst m2; clear Hm2.
  destruct Hcase as [(t & Ht & (Hother2 & len2 & Hlen2 & Hw2))|(Hnone & _)]; [|congruence].
  rewrite Ht1 in Ht. inversion Ht; subst t; clear Ht. rewrite (synced_metadata_fixed _ _ _ Hsy) in *.
  rewrite (replace_same _ _ Ht1) in *. intro k. destruct (pk_dec k w) as [->|K]; [|auto]. rewrite Hw2.
  assert (L : len2 = m_len m1).
  { destruct Hlen2 as [[L _]|L]; [exact L|]. rewrite L, Em1. cbn [set_mexts m_exts m_len].
    destruct Hlen as [[L1 L2]|L1]; [|now symmetry]. rewrite L2, L1. symmetry. apply Hsz. exact Hm. }
  rewrite L, set_mexts_id. rewrite <- Hd1. destruct (l1 w); reflexivity.
Qed.

(** When the source has no repeated keys the second sync does nothing at all. *)
Lemma sync_additional_noop e c p w a s l : forall src hm,
  NoDup (keys src) -> (forall k v, In (k, v) src -> hm_get k hm = Some v) ->
  exists hm', sync_additional e c p w a s src hm l = Ok (hm', l) /\
    forall k, hm_get k hm' = if existsb (String.eqb k) (keys src) then None else hm_get k hm.
Proof.
  induction src as [|[k v] src IH]; intros hm Hn Hin; cbn [sync_additional]; [exists hm; auto|].
  cbn [map fst] in Hn. inversion Hn as [|? ? Hni Hn']; subst.
  assert (E : opt_string_eqb (hm_get k hm) (Some v) = true) by (apply opt_string_eqb_eq; apply Hin; simpl; auto).
  rewrite E. cbn [bind]. destruct (IH (hm_remove k hm) Hn') as (hm' & Hs & Hg).
  - intros k' v' H'. rewrite hm_remove_get. destruct (String.eqb_spec k k') as [->|Hne].
    + exfalso. apply Hni. change k' with (fst (k', v')). now apply in_map.
    + apply Hin. simpl. auto.
  - exists hm'. split; [exact Hs|]. intro x. rewrite Hg, hm_remove_get. cbn [map fst existsb]. rewrite (String.eqb_sym x k).
    destruct (String.eqb k x); cbn [orb]; [destruct (existsb _ _); reflexivity|reflexivity].
Qed.
Lemma process_sync_t22_noop e c l w a u p rest m t um :
  map i_key (c_infos c) = w :: a :: u :: p :: rest -> c_prog c = tw_id ->
  p = t22_id -> a_owner (l w) = t22_id -> w = wrapped_mint_of e u t22_id -> a = authority_of e w ->
  findable e (wrapped_mint_seeds u t22_id) tw_id -> findable e (wrapped_mint_authority_seeds w) tw_id ->
  pod_unpack_mint (a_data (l w)) = Ok m -> ext_metadata m = Some t ->
  extract_token_metadata e c l u (opt_hd (skipn 4 (c_infos c))) (opt_hd (skipn 5 (c_infos c))) = Ok um ->
  in_sync um t -> NoDup (keys (tm_additional um)) ->
  process_sync_metadata_to_token_2022 e c l = Ok l.
Proof.
  intros Hk Hcp -> Ho Ew Ea Fw Fa Hm Ht Hum (N1 & N2 & N3 & N4 & N5) Hn.
  unfold process_sync_metadata_to_token_2022.
  destruct (c_infos c) as [|wi [|ai [|ui [|pi additional]]]] eqn:Hi; try discriminate Hk.
  cbn [map] in Hk. injection Hk as K1 K2 K3 K4 K5. cbv zeta. rewrite K1, K2, K3, K4. cbn [skipn] in Hum.
  replace (match additional with [] => [] | _ :: l0 => l0 end) with (tl additional) in Hum by reflexivity.
  rewrite pk_eqb_refl, Ho, pk_eqb_refl. cbn [guard bind].
  unfold get_wrapped_mint_address_with_seed, get_wrapped_mint_address_with_seed_for_program.
  rewrite (find_pda_findable _ _ _ Fw). cbn [bind fst].
  change (pda e (wrapped_mint_seeds u t22_id) tw_id) with (wrapped_mint_of e u t22_id). rewrite <- Ew, pk_eqb_refl. cbn [guard bind].
  unfold get_wrapped_mint_authority_with_seed, get_wrapped_mint_authority_with_seed_for_program.
  rewrite (find_pda_findable _ _ _ Fa). cbn [bind fst snd].
  change (pda e (wrapped_mint_authority_seeds w) tw_id) with (authority_of e w). rewrite <- Ea, pk_eqb_refl. cbn [guard bind].
  rewrite Hum. cbn [bind]. rewrite Hm. cbn [bind]. rewrite Ht. cbn [update_fields_if_changed get_field].
  rewrite N1, N2, N3, !String.eqb_refl. cbn [bind].
  destruct (sync_additional_noop e c t22_id w a (wrapped_mint_authority_signer_seeds w (find_bump e (wrapped_mint_authority_seeds w) tw_id)) l
              (tm_additional um) (hm_collect (tm_additional t)) Hn) as (hm' & Hs & Hg).
  { intros k v H. rewrite (hm_collect_id _ N4), N5, (last_value_NoDup _ _ Hn). now apply hm_get_In. }
  rewrite Hs. cbn [bind fst snd]. rewrite hm_keys_nil; [reflexivity|].
  intro k. rewrite Hg, (hm_collect_id _ N4), N5. destruct (existsb (String.eqb k) (keys (tm_additional um))) eqn:E; [reflexivity|].
  apply last_value_None. intro X. assert (Y : existsb (String.eqb k) (keys (tm_additional um)) = true).
  { apply existsb_exists. exists k. split; [exact X|apply String.eqb_refl]. } congruence.
Qed.

(** ** SyncMetadataToSplToken *)
Lemma process_sync_spl_inv e c l l' md a w u x sy rn rest :
  map i_key (c_infos c) = md :: a :: w :: u :: x :: sy :: rn :: rest ->
  c_prog c = tw_id ->
  process_sync_metadata_to_spl_token e c l = Ok l' ->
  x = mpl_id /\ a_owner (l w) = spl_token_id /\ w = wrapped_mint_of e u spl_token_id /\ a = authority_of e w /\ md = metaplex_of e w /\
  is_wr (c_infos c) md = true /\
  exists um d,
    extract_token_metadata e c l u (opt_hd (skipn 7 (c_infos c))) (opt_hd (skipn 8 (c_infos c))) = Ok um /\
    token_2022_metadata_to_metaplex e um = Ok d /\
    ((data_is_empty (a_data (l md)) = true /\ a_owner (l md) = system_id /\ is_wr (c_infos c) a = true /\
      a_owner (l a) = system_id /\ e_mpl_cost e <= a_lamports (l a) /\ mpl_data_ok e None d = true /\
      exists m, pod_unpack_mint (a_data (l w)) = Ok m /\ m_auth m = Some a /\
        l' = (let l1 := upd l a (with_lamports (a_lamports (l a) - e_mpl_cost e) (l a)) in
              upd l1 md (mkAcc (a_lamports (l1 md) + e_mpl_cost e)
                (DMpl (mpl_apply d (mkMpl 4 a w EmptyString EmptyString EmptyString 0 None false true (e_mpl_nonce e)
                                      (Some (if m_decimals m =? 0 then 1 else 2)) None None None None))) mpl_id))) \/
     (data_is_empty (a_data (l md)) = false /\ a_owner (l md) = mpl_id /\
      exists old, a_data (l md) = DMpl old /\ mx_update_authority old = a /\ mx_is_mutable old = true /\
        mpl_data_ok e (mx_collection old) d = true /\
        l' = upd l md (with_data (DMpl (mpl_apply d old)) (l md)))).
Proof.
  intros Hk Hcp H. unfold process_sync_metadata_to_spl_token in H.
  destruct (c_infos c) as [|mi [|ai [|wi [|ui [|xi [|si [|ri additional]]]]]]] eqn:Hi; try discriminate H.
  cbn [map] in Hk. inversion Hk; subst md a w u x sy rn rest. clear Hk. cbv zeta in H. cbn [skipn].
  replace (match additional with [] => [] | _ :: l0 => l0 end) with (tl additional) by reflexivity.
  set (md := i_key mi) in *; set (w := i_key wi) in *; set (a := i_key ai) in *; set (u := i_key ui) in *; set (x := i_key xi) in *.
  apply bind_ok in H; destruct H as [[] [Ho H]]. apply guard_ok, pk_eqb_eq in Ho.
  apply bind_ok in H; destruct H as [wm [Hw H]]. apply get_wrapped_mint_address_with_seed_ok in Hw. destruct Hw as [Hw _].
  apply bind_ok in H; destruct H as [[] [Hww H]]. apply guard_ok, pk_eqb_eq in Hww.
  apply bind_ok in H; destruct H as [am [Ha H]]. apply get_wrapped_mint_authority_with_seed_ok in Ha. destruct Ha as [Ha _].
  apply bind_ok in H; destruct H as [[] [Haa H]]. apply guard_ok, pk_eqb_eq in Haa.
  apply bind_ok in H; destruct H as [mp [Hmp H]]. apply metaplex_find_pda_ok in Hmp.
  apply bind_ok in H; destruct H as [[] [Hmd H]]. apply guard_ok, pk_eqb_eq in Hmd.
  apply bind_ok in H; destruct H as [[] [Hx H]]. apply guard_ok, pk_eqb_eq in Hx.
  apply bind_ok in H; destruct H as [um [Hum H]].
  apply bind_ok in H; destruct H as [d [Hd H]].
  split; [exact Hx|]. split; [exact Ho|]. split; [congruence|]. split; [congruence|]. split; [congruence|].
  rewrite <- Hi.
  destruct (data_is_empty (a_data (l md))) eqn:Ee.
  - apply invoke_any_inv in H. destruct H as [H Hwr]. cbn [ix_mpl_create ix_prog ix_metas ix_body] in H, Hwr.
    rewrite exec_program_mpl in H. unfold mpl_exec in H. cbn [map meta_w meta_r i_key] in H. inv_ok.
    split. { apply Hwr. assumption. }
    exists um, d. split; [exact Hum|]. split; [exact Hd|]. left. split; [reflexivity|]. split; [assumption|].
    split. { apply Hwr. assumption. } split; [assumption|]. split; [assumption|]. split; [assumption|].
    eexists. split; [eassumption|]. split; [assumption|]. now symmetry.
  - apply invoke_any_inv in H. destruct H as [H Hwr]. cbn [ix_mpl_update ix_prog ix_metas ix_body] in H, Hwr.
    rewrite exec_program_mpl in H. unfold mpl_exec in H. cbn [map meta_w meta_r i_key] in H. inv_ok.
    destruct (a_data (l md)) as [| | | | |old] eqn:Eo; try discriminate. inv_ok.
    apply set_data_inv in H. destruct H as (W & _ & ->). split. { apply Hwr. exact W. }
    exists um, d. split; [exact Hum|]. split; [exact Hd|]. right. split; [reflexivity|]. split; [assumption|].
    exists old. repeat split; auto.
Qed.

(** ** SetCanonicalPointer *)
Lemma process_set_pointer_inv e c v l l' a p u x rest :
  map i_key (c_infos c) = a :: p :: u :: x :: rest ->
  c_prog c = tw_id ->
  process_set_canonical_pointer e c v l = Ok l' ->
  is_sig (c_infos c) a = true /\ token_program (a_owner (l u)) /\ p = canonical_pointer_of e u /\ (is_wr (c_infos c) p = true \/ a_owner (l p) = tw_id /\ a_data (l p) = DKey v) /\
  (exists m, pod_unpack_mint (a_data (l u)) = Ok m /\ m_auth m = Some a) /\
  (data_is_empty (a_data (l p)) = true /\ a_owner (l p) = system_id /\ e_rent e 32 <= a_lamports (l p) \/
   data_len (a_data (l p)) = 32 /\ a_owner (l p) = tw_id) /\
  l' p = mkAcc (a_lamports (l p)) (DKey v) tw_id /\ forall k, k <> p -> l' k = l k.
Proof.
  intros Hk Hcp H. unfold process_set_canonical_pointer in H.
  destruct (c_infos c) as [|ai [|pi [|ui [|xi additional]]]] eqn:Hi; try discriminate H.
  cbn [map] in Hk. inversion Hk; subst a p u x rest. clear Hk. cbv zeta in H.
  set (p := i_key pi) in *; set (a := i_key ai) in *; set (u := i_key ui) in *.
  apply bind_ok in H; destruct H as [[] [Hs H]]. apply guard_ok in Hs.
  apply bind_ok in H; destruct H as [[] [Ho H]]. apply guard_ok, token_program_eqb in Ho.
  apply bind_ok in H; destruct H as [m [Hm H]].
  apply bind_ok in H; destruct H as [ma [Hma H]]. apply of_option_ok in Hma.
  apply bind_ok in H; destruct H as [[] [Haa H]]. apply guard_ok, pk_eqb_eq in Haa. subst ma.
  apply bind_ok in H; destruct H as [pp [Hpp H]]. apply get_canonical_with_seed_ok in Hpp. destruct Hpp as [Hpp _].
  apply bind_ok in H; destruct H as [[] [Hpe H]]. apply guard_ok, pk_eqb_eq in Hpe.
  apply bind_ok in H; destruct H as [l2 [H2 H]].
  assert (Ep : p = canonical_pointer_of e u) by congruence.
  unfold write_key in H. apply bind_ok in H; destruct H as [[] [Hlen H]]. apply guard_ok, N.eqb_eq in Hlen.
  apply bind_ok in H; destruct H as [[] [W H]]. apply guard_ok in W. apply bind_ok in H; destruct H as [[] [O H]]. apply guard_ok, pk_eqb_eq in O.
  injection H as <-. rewrite Hcp in O.
  split. { unfold is_sig. cbn [existsb]. fold a. rewrite pk_eqb_refl, Hs. reflexivity. }
  split; [exact Ho|]. split; [exact Ep|]. rewrite <- Hi.
  assert (W' : is_wr (c_infos c) p = true \/ a_owner (l2 p) = tw_id /\ a_data (l2 p) = DKey v).
  { apply orb_true_iff in W. destruct W as [W|W]; [left; exact W|right]. split; [exact O|]. unfold holds_key in W.
    destruct (a_data (l2 p)); try discriminate W. apply pk_eqb_eq in W. congruence. }
  destruct (data_is_empty (a_data (l p))) eqn:Ee.
  - apply bind_ok in H2; destruct H2 as [[] [Hr H2]]. apply guard_ok, N.leb_le in Hr.
    apply bind_ok in H2; destruct H2 as [l1 [H1 H2]]. rewrite Hcp in H2.
    assert (Hts : tw_id <> system_id) by discriminate.
    destruct (alloc_assign_inv _ _ _ _ _ _ _ _ _ _ _ _ _ _ Hts H1 H2) as (_ & D1 & O1 & L2 & L2o).
    split. { left. rewrite L2 in W'. destruct W' as [W'|[_ W']]; [exact W'|discriminate W']. }
    split; [exists m; auto|]. split; [left; auto|]. rewrite upd_same, L2. split; [reflexivity|]. intros k K. rewrite upd_other by auto. auto.
  - inversion H2; subst l2. split; [exact W'|]. split; [exists m; auto|]. split; [right; auto|]. rewrite upd_same. split.
    + unfold with_data. rewrite O. reflexivity.
    + intros k K. now rewrite upd_other by auto.
Qed.
