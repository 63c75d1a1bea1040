(** * SyncLive.v — the metadata instructions succeed when they should. *)
From Verif Require Import Base Codec State Pda TokenProg Cpi Meta Processor Tac CodecProofs PdaProofs TokProofs FrameProofs ProcProofs Spec SpecLemmas WrapProofs CreateProofs CreateProofs2 CreateSpec MapProofs SyncProofs SyncProofs2 CloseProofs MetaProofs SyncSpec.

Definition has_md (l : ledger) (w : pubkey) (t : token_metadata) : Prop :=
  a_owner (l w) = t22_id /\ exists m, pod_unpack_mint (a_data (l w)) = Ok m /\ ext_metadata m = Some t.

(** What the authority's metadata calls need. *)
Definition md_ready (e : env) (c : ctx) (w a : pubkey) (s : list atom) : Prop :=
  create_program_address e s (c_prog c) = Ok a /\ has_key (c_infos c) t22_id = true /\
  has_key (c_infos c) w = true /\ has_key (c_infos c) a = true /\ is_wr (c_infos c) w = true /\
  forall x y, e_realloc_ok e x y = true.

Lemma md_invoke e c w a s b l : md_ready e c w a s ->
  invoke_signed e c [] (mkIx t22_id [meta_w w false; meta_r a true] (IxTok b)) [w; a] [s] l =
  tok_exec e t22_id true [meta_w w false; meta_r a true] b l.
Proof.
  intros (Hp & H1 & H2 & H3 & H4 & _). rewrite (invoke_signed_eval e c [] _ [w; a] [s] l [a]); [reflexivity| | | | | |].
  - intros m _ _ [].
  - cbn. rewrite Hp. reflexivity.
  - exact H1.
  - intros m [<-|[<-|[]]]; cbn; auto.
  - intros m [<-|[<-|[]]]; cbn; auto. discriminate.
  - intros m [<-|[<-|[]]]; cbn; auto. discriminate.
Qed.
Lemma md_auth e c w a s l t m : md_ready e c w a s -> pod_unpack_mint (a_data (l w)) = Ok m -> ext_metadata m = Some t -> tm_update_authority t = Some a ->
  md_authorized t22_id [meta_w w false; meta_r a true] w a l = Ok (m, t).
Proof.
  intros R Hm Ht Ha. unfold md_authorized. rewrite pk_eqb_refl. cbn [guard bind]. unfold unpack_mint. rewrite Hm. cbn [bind].
  rewrite (proj2 (pk_eqb_neq t22_id spl_token_id)) by discriminate. cbn [negb orb guard bind]. rewrite Ht. cbn [of_option bind].
  unfold is_sig. cbn. rewrite pk_eqb_refl. rewrite orb_true_r. cbn. rewrite Ha. cbn. rewrite pk_eqb_refl. reflexivity.
Qed.
Lemma md_write e c w a s l m t x : md_ready e c w a s -> a_owner (l w) = t22_id -> m_init m = true ->
  find_map (fun e => match e with MxTokenMetadata t => Some t | _ => None end) x = Some t ->
  exists l', write_mint_exts e t22_id [meta_w w false; meta_r a true] w m x l = Ok l' /\ has_md l' w t.
Proof.
  intros R Ho Hi Hx. unfold write_mint_exts. destruct R as (_ & _ & _ & _ & _ & R). rewrite R. cbn [guard bind].
  unfold set_data, is_wr. cbn [existsb i_key i_writable meta_w meta_r]. rewrite (pk_eqb_refl w). cbn [andb orb guard bind]. rewrite Ho, pk_eqb_refl. cbn [guard bind].
  eexists. split; [reflexivity|]. split; [rewrite upd_same; cbn; exact Ho|]. eexists. split.
  - rewrite upd_same. cbn. rewrite Hi. reflexivity.
  - exact Hx.
Qed.
Lemma md_update_live e c w a s f v l t : md_ready e c w a s -> has_md l w t -> tm_update_authority t = Some a ->
  exists l', cpi_update_field e c t22_id w a f v s l = Ok l' /\ has_md l' w (tm_update f v t).
Proof.
  intros R [Ho (m & Hm & Ht)] Ha. unfold cpi_update_field, ix_md_update_field. rewrite (md_invoke _ _ _ _ _ _ _ R). cbn [tok_exec map i_key meta_w meta_r].
  unfold tok_md_update. rewrite (md_auth _ _ _ _ _ _ _ _ R Hm Ht Ha). cbn [bind fst snd].
  apply (md_write e c w a s l m); auto; [apply pod_unpack_mint_inv in Hm; tauto|]. eapply find_map_replace. exact Ht.
Qed.
Lemma md_remove_live e c w a s k l t : md_ready e c w a s -> has_md l w t -> tm_update_authority t = Some a -> tm_has_key k t = true ->
  exists l', invoke_signed e c [] (ix_md_remove_key t22_id w a k false) [w; a] [s] l = Ok l' /\ has_md l' w (tm_remove k t).
Proof.
  intros R [Ho (m & Hm & Ht)] Ha Hk. unfold ix_md_remove_key. rewrite (md_invoke _ _ _ _ _ _ _ R). cbn [tok_exec map i_key meta_w meta_r].
  unfold tok_md_remove. rewrite (md_auth _ _ _ _ _ _ _ _ R Hm Ht Ha). cbn [bind fst snd]. rewrite Hk. cbn [orb guard bind].
  apply (md_write e c w a s l m); auto; [apply pod_unpack_mint_inv in Hm; tauto|]. eapply find_map_replace. exact Ht.
Qed.
Lemma md_init_live e c w a s n sy ur l m : md_ready e c w a s -> a <> system_id -> a_owner (l w) = t22_id -> pod_unpack_mint (a_data (l w)) = Ok m ->
  ext_metadata m = None -> m_auth m = Some a -> ext_pointer m <> None ->
  exists l' t, invoke_signed e c [] (ix_md_initialize t22_id w a w a n sy ur) [w; a] [s] l = Ok l' /\ has_md l' w t /\ tm_update_authority t = Some a /\ tm_additional t = [].
Proof.
  intros R Ns Ho Hm Hn Ha Hp. pose proof R as (Hc & H1 & H2 & H3 & H4 & H5). unfold ix_md_initialize.
  rewrite (invoke_signed_eval e c [] _ [w; a] [s] l [a]).
  2:{ intros m' _ _ []. } 2:{ cbn. rewrite Hc. reflexivity. } 2:{ exact H1. }
  2:{ intros m' [<-|[<-|[<-|[<-|[]]]]]; cbn; auto. } 2:{ intros m' [<-|[<-|[<-|[<-|[]]]]]; cbn; auto; discriminate. }
  2:{ intros m' [<-|[<-|[<-|[<-|[]]]]]; cbn; auto; discriminate. }
  cbn [ix_prog ix_metas ix_body]. change (exec_program e t22_id ?ms (IxTok ?b) l) with (tok_exec e t22_id true ms b l).
  cbn [tok_exec map i_key meta_w meta_r]. unfold tok_md_initialize. rewrite !pk_eqb_refl, Ho, pk_eqb_refl. cbn [guard bind].
  unfold unpack_mint. rewrite Hm. cbn [bind]. rewrite (proj2 (pk_eqb_neq t22_id spl_token_id)) by discriminate. cbn [negb orb guard bind].
  unfold is_sig. cbn [existsb i_key i_signer meta_w meta_r]. rewrite (pk_eqb_refl a), !orb_true_r. cbn [andb orb guard bind]. rewrite Ha. cbn [opk_eqb]. rewrite pk_eqb_refl. cbn [guard bind].
  destruct (ext_pointer m); [|congruence]. rewrite Hn. cbn [guard bind]. rewrite (proj2 (pk_eqb_neq _ _) Ns).
  unfold write_mint_exts. rewrite H5. cbn [guard bind]. unfold set_data, is_wr. cbn [existsb i_key i_writable meta_w meta_r]. rewrite (pk_eqb_refl w). cbn [andb orb guard bind]. rewrite Ho, pk_eqb_refl. cbn [guard bind].
  eexists. eexists. split; [reflexivity|]. split; [|split]. 
  - split; [rewrite upd_same; cbn; exact Ho|]. eexists. split; [rewrite upd_same; cbn; apply pod_unpack_mint_inv in Hm; destruct Hm as [_ ->]; reflexivity|].
    cbn. apply find_map_append. exact Hn.
  - reflexivity.
  - reflexivity.
Qed.

Lemma update_fields_live e c w a s wm um : md_ready e c w a s -> forall fs l t, Forall (fun f => forall k, f <> FKey k) fs ->
  has_md l w t -> tm_update_authority t = Some a ->
  exists l' t', update_fields_if_changed e c t22_id w a fs wm um s l = Ok l' /\ has_md l' w t' /\ tm_update_authority t' = Some a /\ tm_additional t' = tm_additional t.
Proof.
  intro R. induction fs as [|f fs IH]; intros l t F Hm Ha; cbn [update_fields_if_changed].
  - exists l, t. auto.
  - inversion F as [|? ? Nf Fs]; subst. destruct (String.eqb (get_field f wm) (get_field f um)); cbn [bind]; [apply IH; auto|].
    destruct (md_update_live e c w a s f (get_field f um) l t R Hm Ha) as (l1 & -> & H1). cbn [bind].
    destruct (IH l1 _ Fs H1) as (l' & t' & A & B & C & D); [destruct f; exact Ha|].
    exists l', t'. split; [exact A|]. split; [exact B|]. split; [exact C|]. rewrite D. destruct f; try reflexivity. exfalso. eapply Nf. reflexivity.
Qed.
Lemma hm_remove_keys k m x : In x (keys (hm_remove k m)) -> In x (keys m).
Proof. unfold hm_remove. rewrite !in_map_iff. intros (y & <- & H). apply filter_In in H. exists y. tauto. Qed.
Lemma sync_additional_live e c w a s : md_ready e c w a s -> forall kvs hm l t,
  has_md l w t -> tm_update_authority t = Some a -> NoDup (keys hm) ->
  exists hm' l' t', sync_additional e c t22_id w a s kvs hm l = Ok (hm', l') /\ has_md l' w t' /\ tm_update_authority t' = Some a /\
    NoDup (keys hm') /\ (forall k, In k (keys hm') -> In k (keys hm)) /\ (forall k, In k (keys (tm_additional t)) -> In k (keys (tm_additional t'))).
Proof.
  intro R. induction kvs as [|[k v] kvs IH]; intros hm l t Hm Ha Nd; cbn [sync_additional].
  - exists hm, l, t. auto 10.
  - pose proof (hm_remove_NoDup k hm Nd) as Nd'.
    assert (exists l1 t1, (if opt_string_eqb (hm_get k hm) (Some v) then Ok l else cpi_update_field e c t22_id w a (FKey k) v s l) = Ok l1 /\
       has_md l1 w t1 /\ tm_update_authority t1 = Some a /\ forall x, In x (keys (tm_additional t)) -> In x (keys (tm_additional t1))) as (l1 & t1 & -> & H1 & H2 & H3).
    { destruct (opt_string_eqb _ _); [exists l, t; auto|].
      destruct (md_update_live e c w a s (FKey k) v l t R Hm Ha) as (l1 & -> & H1). exists l1, (tm_update (FKey k) v t). split; [reflexivity|]. split; [exact H1|]. split; [exact Ha|].
      intros x Hx. cbn. apply assoc_set_keys. auto. }
    cbn [bind]. destruct (IH (hm_remove k hm) l1 t1 H1 H2 Nd') as (hm' & l' & t' & A & B & C & D & E & F).
    exists hm', l', t'. split; [exact A|]. split; [exact B|]. split; [exact C|]. split; [exact D|]. split; [|auto].
    intros x Hx. eapply hm_remove_keys. apply E. exact Hx.
Qed.
Lemma remove_stale_live e c w a s : md_ready e c w a s -> forall ks l t, NoDup ks -> (forall k, In k ks -> In k (keys (tm_additional t))) ->
  has_md l w t -> tm_update_authority t = Some a -> exists l', remove_stale e c t22_id w a s ks l = Ok l'.
Proof.
  intro R. induction ks as [|k ks IH]; intros l t Nd Hin Hm Ha; cbn [remove_stale]; [eauto|]. inversion Nd; subst.
  destruct (md_remove_live e c w a s k l t R Hm Ha) as (l1 & -> & Hm1).
  { unfold tm_has_key. apply existsb_exists. specialize (Hin k (or_introl eq_refl)). apply in_map_iff in Hin. destruct Hin as (y & <- & Hy). exists y. split; [exact Hy|apply String.eqb_refl]. }
  cbn [bind]. eapply IH; [assumption| |exact Hm1|exact Ha]. intros x Hx. cbn. specialize (Hin x (or_intror Hx)).
  apply in_map_iff in Hin. destruct Hin as (y & <- & Hy). apply in_map. apply filter_In. split; [exact Hy|].
  apply negb_true_iff. apply String.eqb_neq. intro E. rewrite E in Hx. contradiction.
Qed.
Lemma add_all_live e c w a s : md_ready e c w a s -> forall kvs l t, has_md l w t -> tm_update_authority t = Some a ->
  exists l', add_all e c t22_id w a s kvs l = Ok l'.
Proof.
  intro R. induction kvs as [|[k v] kvs IH]; intros l t Hm Ha; cbn [add_all]; [eauto|].
  destruct (md_update_live e c w a s (FKey k) v l t R Hm Ha) as (l1 & -> & Hm1). cbn [bind]. eapply IH; [exact Hm1|exact Ha].
Qed.

Lemma keys_has accounts k ks : keys_are accounts ks -> In k ks -> has_key accounts k = true.
Proof. intros [more H] Hin. apply has_key_In. assert (In k (map i_key accounts)) as X by (rewrite H; apply in_or_app; auto). apply in_map_iff in X. destruct X as (m & A & B). eauto. Qed.
Lemma extract_provided e accounts l u n n' :
  (forall err, ~ source_error e l u (nth_error (map i_key accounts) n) (nth_error (map i_key accounts) n') err) ->
  exists um, extract_token_metadata e (mkCtx tw_id accounts) l u (opt_hd (skipn n accounts)) (opt_hd (skipn n' accounts)) = Ok um /\ authentic_metadata e l u um.
Proof.
  intro H. destruct (extract_token_metadata e (mkCtx tw_id accounts) l u (opt_hd (skipn n accounts)) (opt_hd (skipn n' accounts))) as [um|err] eqn:E.
  - exists um. split; [reflexivity|]. eapply extract_authentic. exact E.
  - exfalso. apply (H err). rewrite <- !opt_hd_skipn. apply (extract_err e (mkCtx tw_id accounts)) in E; [exact E|]. intros i [X|X]; exact (opt_hd_In _ _ _ X).
Qed.

Lemma sync_t22_live_l e accounts l w a u m :
  keys_are accounts [w; a; u; t22_id] -> sync_addresses_exist e u t22_id ->
  w = wrapped_mint_of e u t22_id -> a = authority_of e w -> writable accounts w ->
  mint_account l w t22_id m -> m_auth m = Some a -> ~ no_pointer m ->
  (forall t, own_metadata m t -> tm_update_authority t = Some a /\ distinct_keys (tm_additional t)) ->
  (forall x y, e_realloc_ok e x y = true) ->
  (forall err, ~ source_error e l u (nth_error (map i_key accounts) 4) (nth_error (map i_key accounts) 5) err) ->
  exists l', succeeds e accounts SyncMetadataToToken2022 l l'.
Proof.
  intros Hks [D1 D2] Ew Ea Wr (Ho & Hm & Hi) Hau Hp Hmd Hre Hs.
  destruct (extract_provided _ _ _ _ _ _ Hs) as (um & Hum & _). unfold succeeds. setoid_rewrite sync_t22_outcome.
  assert (Hm' : pod_unpack_mint (a_data (l w)) = Ok m) by (rewrite Hm; apply pod_unpack_mint_ok; exact Hi).
  rewrite <- Ew in D2.
  assert (R : md_ready e (mkCtx tw_id accounts) w a (wrapped_mint_authority_signer_seeds w (find_bump e (wrapped_mint_authority_seeds w) tw_id))).
  { split; [|split; [|split; [|split; [|split]]]]; cbn [c_infos c_prog]; try (eapply keys_has; [exact Hks|cbn; auto]); [|apply writable_is_wr; exact Wr|exact Hre].
    rewrite Ea. change (wrapped_mint_authority_signer_seeds w ?b) with (wrapped_mint_authority_seeds w ++ [inl b]). apply find_pda_create. apply findable_get. exact D2. }
  pose proof Hks as [more Hk]. destruct accounts as [|i1 [|i2 [|i3 [|i4 rest]]]]; try discriminate. cbn in Hk. injection Hk as K1 K2 K3 K4 _.
  unfold process_sync_metadata_to_token_2022. cbn [c_infos]. cbv zeta. rewrite K1, K2, K3, K4, Ho, !pk_eqb_refl. cbn [guard bind].
  unfold get_wrapped_mint_address_with_seed, get_wrapped_mint_address_with_seed_for_program. rewrite (findable_get _ _ _ D1). cbn [bind fst].
  change (pda e (wrapped_mint_seeds u t22_id) tw_id) with (wrapped_mint_of e u t22_id). rewrite <- Ew, pk_eqb_refl. cbn [guard bind].
  unfold get_wrapped_mint_authority_with_seed, get_wrapped_mint_authority_with_seed_for_program. rewrite (findable_get _ _ _ D2). cbn [bind fst snd].
  change (pda e (wrapped_mint_authority_seeds w) tw_id) with (authority_of e w). rewrite <- Ea, pk_eqb_refl. cbn [guard bind].
  replace (opt_hd (tl rest)) with (opt_hd (skipn 5 (i1 :: i2 :: i3 :: i4 :: rest))) by (destruct rest; reflexivity).
  cbn [skipn] in Hum |- *. rewrite Hum. cbn [bind]. rewrite Hm'. cbn [bind].
  destruct (ext_metadata m) as [t|] eqn:Et.
  - destruct (Hmd t Et) as [Hua Hdk].
    assert (M : has_md l w t) by (split; [exact Ho|eauto]).
    destruct (update_fields_live _ _ _ _ _ t um R [FName; FSymbol; FUri] l t) as (l1 & t1 & -> & M1 & U1 & A1); auto.
    { repeat constructor; discriminate. }
    cbn [bind].
    destruct (sync_additional_live _ _ _ _ _ R (tm_additional um) (hm_collect (tm_additional t)) l1 t1 M1 U1) as (hm' & l2 & t2 & -> & M2 & U2 & N2 & K & A2).
    { rewrite hm_collect_id by exact Hdk. exact Hdk. }
    cbn [bind fst snd]. eapply remove_stale_live; [exact R|apply hm_keys_NoDup; exact N2| |exact M2|exact U2].
    intros k Hkk. apply hm_keys_In in Hkk. apply A2. rewrite A1. apply K in Hkk. rewrite hm_collect_id in Hkk by exact Hdk. exact Hkk.
  - destruct (md_init_live _ _ _ _ _ (tm_name um) (tm_symbol um) (tm_uri um) l m R) as (l1 & t1 & -> & M1 & U1 & _); auto.
    { rewrite Ea. apply authority_not_system. }
    cbn [bind]. eapply add_all_live; [exact R|exact M1|exact U1].
Qed.

(** ** SyncMetadataToSplToken *)
Lemma sync_spl_live_l e accounts l md a w u sy rn :
  keys_are accounts [md; a; w; u; mpl_id; sy; rn] -> sync_addresses_exist e u spl_token_id -> derivable e (metaplex_seeds w) mpl_id ->
  w = wrapped_mint_of e u spl_token_id -> a = authority_of e w -> md = metaplex_of e w -> a_owner (l w) = spl_token_id -> writable accounts md ->
  (forall err, ~ source_error e l u (nth_error (map i_key accounts) 7) (nth_error (map i_key accounts) 8) err) ->
  (forall src k v, authentic_metadata e l u src -> In (k, v) (tm_additional src) -> ~ malformed e k v) ->
  ((no_data l md /\ a_owner (l md) = system_id /\ writable accounts a /\ a_owner (l a) = system_id /\ no_data l a /\ e_mpl_cost e <= lamports l a /\
    (exists m, mint_data l w m /\ m_auth m = Some a) /\
    forall src d, authentic_metadata e l u src -> converted e src d -> metaplex_accepts e None d) \/
   (exists old, metaplex_account l md old /\ mx_update_authority old = a /\ mx_is_mutable old = true /\
    forall src d, authentic_metadata e l u src -> converted e src d -> metaplex_accepts e (mx_collection old) d)) ->
  exists l', succeeds e accounts SyncMetadataToSplToken l l'.
Proof.
  intros Hks [D1 D2] D3 Ew Ea Emd Ho Wr Hs Hmal Hcase.
  destruct (extract_provided _ _ _ _ _ _ Hs) as (um & Hum & Au). unfold succeeds. setoid_rewrite sync_spl_outcome.
  destruct (token_2022_metadata_to_metaplex e um) as [d|err] eqn:Ec.
  2:{ apply convert_err_l in Ec. destruct Ec as [(k & v & A & B) _]. exfalso. exact (Hmal _ _ _ Au A B). }
  pose proof (convert_ok_l _ _ _ Ec) as Hconv.
  rewrite <- Ew in D2.
  assert (Hsig : create_program_address e (wrapped_mint_authority_signer_seeds w (find_bump e (wrapped_mint_authority_seeds w) tw_id)) tw_id = Ok a).
  { rewrite Ea. change (wrapped_mint_authority_signer_seeds w ?b) with (wrapped_mint_authority_seeds w ++ [inl b]). apply find_pda_create. apply findable_get. exact D2. }
  assert (Hkey : forall k, In k [md; a; w; u; mpl_id; sy; rn] -> has_key accounts k = true) by (intros k; apply keys_has; exact Hks).
  pose proof Hks as [more Hk]. destruct accounts as [|i1 [|i2 [|i3 [|i4 [|i5 [|i6 [|i7 rest]]]]]]]; try discriminate. cbn in Hk. injection Hk as K1 K2 K3 K4 K5 K6 K7 _.
  unfold process_sync_metadata_to_spl_token. cbn [c_infos]. cbv zeta. rewrite K1, K2, K3, K4, K5, K6, K7, Ho, !pk_eqb_refl. cbn [guard bind].
  unfold get_wrapped_mint_address_with_seed, get_wrapped_mint_address_with_seed_for_program. rewrite (findable_get _ _ _ D1). cbn [bind fst].
  change (pda e (wrapped_mint_seeds u spl_token_id) tw_id) with (wrapped_mint_of e u spl_token_id). rewrite <- Ew, pk_eqb_refl. cbn [guard bind].
  unfold get_wrapped_mint_authority_with_seed, get_wrapped_mint_authority_with_seed_for_program. rewrite (findable_get _ _ _ D2). cbn [bind fst snd].
  change (pda e (wrapped_mint_authority_seeds w) tw_id) with (authority_of e w). rewrite <- Ea, pk_eqb_refl. cbn [guard bind].
  unfold metaplex_find_pda. rewrite (findable_get _ _ _ D3). cbn [bind fst].
  change (pda e (metaplex_seeds w) mpl_id) with (metaplex_of e w). rewrite <- Emd, pk_eqb_refl. cbn [guard bind].
  replace (opt_hd (tl rest)) with (opt_hd (skipn 8 (i1 :: i2 :: i3 :: i4 :: i5 :: i6 :: i7 :: rest))) by (destruct rest; reflexivity).
  cbn [skipn] in Hum |- *. rewrite Hum. cbn [bind]. rewrite Ec. cbn [bind].
  destruct Hcase as [(Hn & Hos & Wa & Oa & Na & Hcost & (m & (Hm & Hi) & Hau) & Hacc)|(old & (Hom & Hd) & Hua & Hmu & Hacc)].
  - replace (data_is_empty (a_data (l md))) with true by (symmetry; apply N.eqb_eq; exact Hn).
    rewrite (invoke_signed_eval e _ [] _ _ _ l [a]).
    2:{ intros m' _ _ []. } 2:{ cbn [map_res c_prog]. rewrite Hsig. reflexivity. } 2:{ apply Hkey. cbn. auto 10. }
    2:{ intros m' Hm'. cbn in Hm'. repeat (destruct Hm' as [<-|Hm']; [cbn [meta_w meta_r i_key]; split; [cbn; auto 10|apply Hkey; cbn; auto 10]|]). destruct Hm'. }
    2:{ intros m' Hm'. cbn in Hm'. repeat (destruct Hm' as [<-|Hm']; [cbn [meta_w meta_r i_key i_writable]; intro; try discriminate; apply writable_is_wr; assumption|]). destruct Hm'. }
    2:{ intros m' Hm'. cbn in Hm'. repeat (destruct Hm' as [<-|Hm']; [cbn [meta_w meta_r i_key i_signer]; intro; try discriminate; right; left; reflexivity|]). destruct Hm'. }
    cbn [ix_prog ix_metas ix_body ix_mpl_create]. change (exec_program e mpl_id ?ms (IxMpl ?b) l) with (mpl_exec e ms b l).
    cbn [mpl_exec map i_key meta_w meta_r]. rewrite <- Emd, pk_eqb_refl. cbn [guard bind].
    replace (data_is_empty (a_data (l md))) with true by (symmetry; apply N.eqb_eq; exact Hn). rewrite Hos, pk_eqb_refl. cbn [andb guard bind].
    rewrite Ho, pk_eqb_refl. cbn [orb guard bind]. rewrite Hm, pod_unpack_mint_ok by exact Hi. cbn [bind]. rewrite Hau. cbn [opk_eqb]. rewrite pk_eqb_refl.
    unfold is_sig, is_wr. cbn [existsb i_key i_signer i_writable meta_w meta_r]. rewrite !(pk_eqb_refl a), !(pk_eqb_refl md), !orb_true_r, !orb_true_l. cbn [andb orb guard bind]. rewrite ?orb_true_r. cbn [andb orb guard bind].
    rewrite (proj2 (mpl_data_ok_accepts e um None d Ec)) by (eapply Hacc; eassumption). cbn [guard bind]. rewrite Oa, pk_eqb_refl.
    replace (data_is_empty (a_data (l a))) with true by (symmetry; apply N.eqb_eq; exact Na). cbn [andb guard bind].
    replace (e_mpl_cost e <=? a_lamports (l a)) with true by (symmetry; apply N.leb_le; exact Hcost). cbn [guard bind].
    assert (Nam : a <> md) by (rewrite Ea, Emd; unfold authority_of, authority_for, metaplex_of, pda; intro X; inversion X).
    rewrite (proj2 (pk_eqb_neq _ _) Nam). cbn [negb guard bind]. eexists; reflexivity.
  - rewrite Hd. change (data_is_empty (DMpl old)) with false. cbv iota.
    rewrite (invoke_signed_eval e _ [] _ _ _ l [a]).
    2:{ intros m' _ _ []. } 2:{ cbn [map_res c_prog]. rewrite Hsig. reflexivity. } 2:{ apply Hkey. cbn. auto 10. }
    2:{ intros m' Hm'. cbn in Hm'. repeat (destruct Hm' as [<-|Hm']; [cbn [meta_w meta_r i_key]; split; [cbn; auto 10|apply Hkey; cbn; auto 10]|]). destruct Hm'. }
    2:{ intros m' Hm'. cbn in Hm'. repeat (destruct Hm' as [<-|Hm']; [cbn [meta_w meta_r i_key i_writable]; intro; try discriminate; apply writable_is_wr; assumption|]). destruct Hm'. }
    2:{ intros m' Hm'. cbn in Hm'. repeat (destruct Hm' as [<-|Hm']; [cbn [meta_w meta_r i_key i_signer]; intro; try discriminate; right; left; reflexivity|]). destruct Hm'. }
    cbn [ix_prog ix_metas ix_body ix_mpl_update]. change (exec_program e mpl_id ?ms (IxMpl ?b) l) with (mpl_exec e ms b l).
    cbn [mpl_exec map i_key meta_w meta_r]. rewrite Hom, pk_eqb_refl. cbn [guard bind]. rewrite Hd. rewrite Hua, Hmu, pk_eqb_refl.
    unfold is_sig. cbn [existsb i_key i_signer meta_w meta_r]. rewrite (pk_eqb_refl a), orb_true_r. cbn [guard bind andb orb]. rewrite ?orb_true_r. cbn [guard bind andb orb].
    rewrite (proj2 (mpl_data_ok_accepts e um _ d Ec)) by (eapply Hacc; eassumption). cbn [guard bind].
    unfold set_data, is_wr. cbn [existsb i_key i_writable meta_w meta_r]. rewrite (pk_eqb_refl md). cbn [andb orb guard bind]. rewrite Hom, pk_eqb_refl. cbn [guard bind]. eexists; reflexivity.
Qed.

(** A Metaplex source whose collection is verified can never be synced to a fresh account. *)
Lemma verified_collection_l e accounts l l' md a w u x sy rn mx c :
  keys_are accounts [md; a; w; u; x; sy; rn] -> json_round_trips e mx -> mx_sfbp mx < 2 ^ 16 ->
  authentic_metadata e l u (from_metaplex e u mx) -> mx_collection mx = Some c -> co_verified c = true -> no_data l md ->
  ~ succeeds e accounts SyncMetadataToSplToken l l'.
Proof.
  intros [more Hk] J Hf Hau Hc Hv Hn H. unfold succeeds in H. rewrite sync_spl_outcome in H.
  destruct (process_sync_spl_inv _ (mkCtx tw_id accounts) _ _ _ _ _ _ _ _ _ more Hk eq_refl H) as (_ & _ & _ & _ & _ & _ & um & d & Hum & Hcv & Hcase).
  apply extract_authentic in Hum. rewrite (authentic_fun _ _ _ _ _ Hum Hau) in *.
  destruct Hcase as [(_ & _ & _ & _ & _ & Hok & _)|(Hne & _)]; [|apply N.eqb_neq in Hne; contradiction].
  apply (mpl_data_ok_accepts e _ None d Hcv) in Hok. destruct Hok as [_ Hok]. rewrite (round_trip_convert e u mx J Hf) in Hcv. injection Hcv as <-.
  specialize (Hok c Hc Hv). discriminate.
Qed.
