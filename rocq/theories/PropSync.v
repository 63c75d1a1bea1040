(** * PropSync.v — C24..C28: metadata.

    SyncMetadataToToken2022: [wrapped mint; authority; unwrapped mint; Token-2022; source?; owner program?].
    SyncMetadataToSplToken: [Metaplex account; authority; wrapped mint; unwrapped mint; Metaplex; system; rent;
    source?; owner program?]. *)
From Verif Require Import Base Codec State Pda TokenProg Cpi Meta Processor Builders PdaProofs Spec Demo Demo2 SyncProofs2 MetaProofs SyncSpec SyncLive.

(** C24: after a successful sync the wrapped mint shows exactly the source (in whatever order the hash map was iterated: [e] is any environment). *)
Theorem C24_sync_copies : forall e accounts l l' w a u p,
  keys_are accounts [w; a; u; p] -> succeeds e accounts SyncMetadataToToken2022 l l' ->
  (forall m t, mint_data l w m -> own_metadata m t -> distinct_keys (tm_additional t)) ->
  w = wrapped_mint_of e u t22_id /\ a = authority_of e w /\
  exists src m' t', authentic_metadata e l u src /\ mint_account l' w t22_id m' /\ own_metadata m' t' /\
    tm_name t' = tm_name src /\ tm_symbol t' = tm_symbol src /\ tm_uri t' = tm_uri src /\
    same_fields (tm_additional src) (tm_additional t').
Proof. exact sync_copies_l. Qed.
Print Assumptions C24_sync_copies.

(** C24: and the sync does succeed, on any acceptable source, whether or not there was metadata before. *)
Theorem C24_sync_live : forall e accounts l w a u m,
  keys_are accounts [w; a; u; t22_id] -> sync_addresses_exist e u t22_id ->
  w = wrapped_mint_of e u t22_id -> a = authority_of e w -> writable accounts w ->
  mint_account l w t22_id m -> m_auth m = Some a -> ~ no_pointer m ->
  (forall t, own_metadata m t -> tm_update_authority t = Some a /\ distinct_keys (tm_additional t)) ->
  (forall x y, e_realloc_ok e x y = true) ->
  (forall err, ~ source_error e l u (nth_error (map i_key accounts) 4) (nth_error (map i_key accounts) 5) err) ->
  exists l', succeeds e accounts SyncMetadataToToken2022 l l'.
Proof. exact sync_t22_live_l. Qed.
Print Assumptions C24_sync_live.

(** C25: a sync changes nothing but the metadata extension (and the account size). *)
Theorem C25_confined : forall e accounts l l' w a u p,
  keys_are accounts [w; a; u; p] -> succeeds e accounts SyncMetadataToToken2022 l l' ->
  (forall m t, mint_data l w m -> own_metadata m t -> distinct_keys (tm_additional t)) ->
  (exists m m', mint_account l w t22_id m /\ mint_account l' w t22_id m' /\ same_core m m' /\ (tight m -> tight m') /\
     (forall t, own_metadata m t -> exists t', own_metadata m' t' /\ tm_update_authority t' = tm_update_authority t /\ tm_mint t' = tm_mint t) /\
     ((forall t, ~ own_metadata m t) -> exists t', own_metadata m' t' /\ tm_update_authority t' = Some a /\ tm_mint t' = w)) /\
  lamports l' w = lamports l w /\ forall k, k <> w -> l' k = l k.
Proof. exact sync_confined_l. Qed.
Print Assumptions C25_confined.

(** C25: syncing twice equals syncing once ... *)
Theorem C25_twice : forall e accounts l l1 l2 w a u p,
  keys_are accounts [w; a; u; p] ->
  (forall m, mint_data l w m -> tight m) ->
  (forall m t, mint_data l w m -> own_metadata m t -> distinct_keys (tm_additional t)) ->
  succeeds e accounts SyncMetadataToToken2022 l l1 -> succeeds e accounts SyncMetadataToToken2022 l1 l2 ->
  forall k, l2 k = l1 k.
Proof. exact sync_twice_l. Qed.
Print Assumptions C25_twice.

(** ... and when the source has no repeated key the second sync does succeed and changes nothing at all. *)
Theorem C25_again : forall e accounts l l1 w a u p,
  keys_are accounts [w; a; u; p] ->
  (forall m t, mint_data l w m -> own_metadata m t -> distinct_keys (tm_additional t)) ->
  (forall src, authentic_metadata e l u src -> distinct_keys (tm_additional src)) ->
  succeeds e accounts SyncMetadataToToken2022 l l1 -> succeeds e accounts SyncMetadataToToken2022 l1 l1.
Proof. exact sync_again_l. Qed.
Print Assumptions C25_again.

(** C26: at most one metadata is authentic for a mint; every successful sync uses it ([C24_sync_copies], [C28_spl]). *)
Theorem C26_unique : forall e l u t t',
  authentic_metadata e l u t -> authentic_metadata e l u t' -> t = t'.
Proof. exact authentic_fun. Qed.
Print Assumptions C26_unique.

(** C26: every other source is refused with the documented error, by both instructions ... *)
Theorem C26_refused_t22 : forall e accounts l w a u err,
  keys_are accounts [w; a; u; t22_id] -> sync_addresses_exist e u t22_id ->
  w = wrapped_mint_of e u t22_id -> a = authority_of e w -> a_owner (l w) = t22_id ->
  source_error e l u (nth_error (map i_key accounts) 4) (nth_error (map i_key accounts) 5) err ->
  fails e accounts SyncMetadataToToken2022 l err.
Proof. exact sync_t22_refused_l. Qed.
Print Assumptions C26_refused_t22.

(** ... *)
Theorem C26_refused_spl : forall e accounts l md w a u sy rn err,
  keys_are accounts [md; a; w; u; mpl_id; sy; rn] -> sync_addresses_exist e u spl_token_id -> derivable e (metaplex_seeds w) mpl_id ->
  w = wrapped_mint_of e u spl_token_id -> a = authority_of e w -> md = metaplex_of e w -> a_owner (l w) = spl_token_id ->
  source_error e l u (nth_error (map i_key accounts) 7) (nth_error (map i_key accounts) 8) err ->
  fails e accounts SyncMetadataToSplToken l err.
Proof. exact sync_spl_refused_l. Qed.
Print Assumptions C26_refused_spl.

(** ... and there is no third possibility: a source that is not refused is authentic. *)
Theorem C26_complete : forall e accounts l u n n',
  (exists err, source_error e l u (nth_error (map i_key accounts) n) (nth_error (map i_key accounts) n') err) \/
  (exists src, authentic_metadata e l u src).
Proof.
  intros e accounts l u n n'.
  destruct (extract_token_metadata e (mkCtx tw_id accounts) l u (opt_hd (skipn n accounts)) (opt_hd (skipn n' accounts))) as [t|err] eqn:E.
  - right. exists t. eapply extract_authentic. exact E.
  - left. exists err. rewrite <- !opt_hd_skipn. apply (extract_err e (mkCtx tw_id accounts)) in E; [exact E|]. intros i [X|X]; exact (opt_hd_In _ _ _ X).
Qed.
Print Assumptions C26_complete.

(** C27: Metaplex to token metadata and back. *)
Theorem C27_round_trip : forall e u x,
  json_round_trips e x -> mx_sfbp x < 2 ^ 16 -> exists d,
  token_2022_metadata_to_metaplex e (from_metaplex e u x) = Ok d /\
  d2_name d = mx_name x /\ d2_symbol d = mx_symbol x /\ d2_uri d = mx_uri x /\ d2_sfbp d = mx_sfbp x /\
  d2_collection d = mx_collection x /\ d2_uses d = mx_uses x /\
  (mx_creators x = None \/ mx_creators x = Some [] -> d2_creators d = None) /\
  (forall cs, mx_creators x = Some cs -> cs <> [] -> exists cs', d2_creators d = Some cs' /\ Forall2 unverified_copy cs cs').
Proof. exact round_trip_convert_l. Qed.
Print Assumptions C27_round_trip.

(** C27: what any token metadata is converted to (repeated keys: the last one counts) ... *)
Theorem C27_conversion : forall e t d,
  token_2022_metadata_to_metaplex e t = Ok d ->
  d2_name d = tm_name t /\ d2_symbol d = tm_symbol t /\ d2_uri d = tm_uri t /\
  (absent (tm_additional t) "seller_fee_basis_points" -> d2_sfbp d = 0) /\
  (forall v, field_value (tm_additional t) "seller_fee_basis_points" v -> numeral_u16 v (d2_sfbp d)) /\
  (absent (tm_additional t) "creators" -> d2_creators d = None) /\
  (forall v, field_value (tm_additional t) "creators" v ->
     exists cs cs', e_parse_creators e v = Some cs /\ d2_creators d = Some cs' /\ Forall2 unverified_copy cs cs') /\
  (absent (tm_additional t) "collection" -> d2_collection d = None) /\
  (forall v, field_value (tm_additional t) "collection" v -> exists x, e_parse_collection e v = Some x /\ d2_collection d = Some x) /\
  (absent (tm_additional t) "uses" -> d2_uses d = None) /\
  (forall v, field_value (tm_additional t) "uses" v -> exists x, e_parse_uses e v = Some x /\ d2_uses d = Some x).
Proof. exact convert_ok_l. Qed.
Print Assumptions C27_conversion.

(** ... and exactly which are rejected. *)
Theorem C27_rejected : forall e t err,
  token_2022_metadata_to_metaplex e t = Err err <->
  (exists k v, In (k, v) (tm_additional t) /\ malformed e k v) /\ err = EInvalidAccountData.
Proof. exact convert_err_l. Qed.
Print Assumptions C27_rejected.

(** C28: what a successful SyncMetadataToSplToken has done. *)
Theorem C28_spl : forall e accounts l l' md a w u x sy rn,
  keys_are accounts [md; a; w; u; x; sy; rn] -> succeeds e accounts SyncMetadataToSplToken l l' ->
  (x = mpl_id /\ w = wrapped_mint_of e u spl_token_id /\ a = authority_of e w /\ md = metaplex_of e w /\ a_owner (l w) = spl_token_id) /\
  writable accounts md /\
  exists src d, authentic_metadata e l u src /\ converted e src d /\
    ((no_data l md /\ a_owner (l md) = system_id /\ e_mpl_cost e <= lamports l a /\
      exists m x', mint_data l w m /\ m_auth m = Some a /\ metaplex_account l' md x' /\ shows x' d /\ no_verified_creator x' /\
        mx_key x' = 4 /\ mx_update_authority x' = a /\ mx_mint x' = w /\ mx_is_mutable x' = true /\ mx_primary_sale x' = false /\
        lamports l' md = lamports l md + e_mpl_cost e /\
        l' a = with_lamports (lamports l a - e_mpl_cost e) (l a) /\
        forall k, k <> md -> k <> a -> l' k = l k) \/
     (has_data l md /\ exists old x', metaplex_account l md old /\ mx_update_authority old = a /\ mx_is_mutable old = true /\
        metaplex_account l' md x' /\ shows x' d /\ no_verified_creator x' /\ same_metaplex_frame old x' /\
        lamports l' md = lamports l md /\ forall k, k <> md -> l' k = l k)).
Proof. exact sync_spl_l. Qed.
Print Assumptions C28_spl.

(** C28: it succeeds whenever the source is acceptable to Metaplex. *)
Theorem C28_live : forall e accounts l md a w u sy rn,
  keys_are accounts [md; a; w; u; mpl_id; sy; rn] -> sync_addresses_exist e u spl_token_id -> derivable e (metaplex_seeds w) mpl_id ->
  w = wrapped_mint_of e u spl_token_id -> a = authority_of e w -> md = metaplex_of e w -> a_owner (l w) = spl_token_id -> writable accounts md ->
  (forall err, ~ source_error e l u (nth_error (map i_key accounts) 7) (nth_error (map i_key accounts) 8) err) ->
  (forall src k v, authentic_metadata e l u src -> In (k, v) (tm_additional src) -> ~ malformed e k v) ->
  ((no_data l md /\ a_owner (l md) = system_id /\ writable accounts a /\ a_owner (l a) = system_id /\ no_data l a /\ e_mpl_cost e <= lamports l a /\
    (exists m, mint_data l w m /\ m_auth m = Some a) /\
    forall src d, authentic_metadata e l u src -> converted e src d -> metaplex_accepts e None d) \/
   (exists old, metaplex_account l md old /\ mx_update_authority old = a /\ mx_is_mutable old = true /\
    forall src d, authentic_metadata e l u src -> converted e src d -> metaplex_accepts e (mx_collection old) d)) ->
  exists l', succeeds e accounts SyncMetadataToSplToken l l'.
Proof. exact sync_spl_live_l. Qed.
Print Assumptions C28_live.

(** Finding: the verified flag of a collection is copied (unlike that of creators), so a mint whose Metaplex collection is verified can never get Metaplex metadata on its SPL wrapped mint. *)
Theorem C28_verified_collection_refuted : forall e accounts l l' md a w u x sy rn mx c,
  keys_are accounts [md; a; w; u; x; sy; rn] -> json_round_trips e mx -> mx_sfbp mx < 2 ^ 16 ->
  authentic_metadata e l u (from_metaplex e u mx) -> mx_collection mx = Some c -> co_verified c = true -> no_data l md ->
  ~ succeeds e accounts SyncMetadataToSplToken l l'.
Proof. exact verified_collection_l. Qed.
Print Assumptions C28_verified_collection_refuted.

(** ** The hypotheses are met.  The unwrapped SPL mint has Metaplex metadata with creators, a
    collection and uses; a verified creator and stale fields on the wrapped mint. *)
Definition s_creator : creator := mkCreator d_bob true 100.
Definition s_coll : collection := mkCollection false d_bob.
Definition s_uses : uses := mkUses 1 2 3.
Definition s_mx : mpl_metadata :=
  mkMpl 4 d_mintauth d_u "Coin" "C" "uri" 250 (Some [s_creator]) false true (Some 255) (Some 2) (Some s_coll) (Some s_uses) None None.
Definition s_env : env :=
  mkEnv (fun _ _ => true) (fun n => n * 10) 5 false
        (fun _ _ _ l => Ok l) (fun _ _ _ => Ok []) (fun _ _ _ => Ok [])
        (fun _ l _ => Ok l) (fun _ _ _ => Ok None) (fun _ _ => true) (fun s => str_len s)
        (fun b => PkRaw (1000 + from_le b)) (fun _ => true) 100 None
        (fun _ => "K"%string) (fun _ => "ts"%string) (fun _ => "cr"%string) (fun _ => "co"%string) (fun _ => "us"%string)
        (fun _ => "cd"%string) (fun _ => "pc"%string)
        (fun _ => Some [mkCreator d_bob false 100]) (fun _ => Some s_coll) (fun _ => Some s_uses).
Definition s_md : pubkey := metaplex_of s_env d_u.
Definition s_ledger : ledger := upd (after [i_create] demo0) s_md (mkAcc 5000 (DMpl s_mx) mpl_id).
Definition s_sync : tw_instruction := build_sync_to_token_2022 tw_id (d_w t22_id) (d_a t22_id) d_u (Some s_md) None.
Definition metadata_of (l : ledger) (k : pubkey) : option token_metadata :=
  match a_data (l k) with DMint m => ext_metadata m | _ => None end.
Example C24_nonvacuous : exists l',
  keys_are (tx_metas s_sync) [d_w t22_id; d_a t22_id; d_u; t22_id] /\ succeeds s_env (tx_metas s_sync) SyncMetadataToToken2022 s_ledger l' /\
  option_map (fun t => (tm_name t, tm_symbol t, tm_additional t)) (metadata_of l' (d_w t22_id)) =
  Some ("Coin", "C", [("key", "K"); ("seller_fee_basis_points", "250"); ("primary_sale_happened", "false"); ("is_mutable", "true"); ("creators", "cr");
                      ("edition_nonce", "255"); ("token_standard", "ts"); ("collection", "co"); ("uses", "us")])%string.
Proof. eexists. split; [exists [s_md]; vm_compute; reflexivity|]. split; [vm_compute; reflexivity|vm_compute; reflexivity]. Qed.
(** The source then changes: a renamed field and a dropped one are tracked. *)
Definition s_mx2 : mpl_metadata :=
  mkMpl 4 d_mintauth d_u "Coin2" "C" "uri2" 7 None false true (Some 255) (Some 2) None (Some s_uses) None None.
Definition s_once : ledger := match outcome s_env (tx_metas s_sync) SyncMetadataToToken2022 s_ledger with Ok l => l | Err _ => s_ledger end.
Definition s_changed : ledger := upd s_once s_md (mkAcc 5000 (DMpl s_mx2) mpl_id).
Example C25_nonvacuous : exists l',
  succeeds s_env (tx_metas s_sync) SyncMetadataToToken2022 s_changed l' /\
  option_map (fun t => (tm_name t, tm_symbol t, tm_additional t)) (metadata_of l' (d_w t22_id)) =
  Some ("Coin2", "C", [("key", "K"); ("seller_fee_basis_points", "7"); ("primary_sale_happened", "false"); ("is_mutable", "true");
                      ("edition_nonce", "255"); ("token_standard", "ts"); ("uses", "us")])%string /\
  succeeds s_env (tx_metas s_sync) SyncMetadataToToken2022 l' l' /\
  (forall m, mint_data s_changed (d_w t22_id) m -> tight m) /\
  (forall m t, mint_data s_changed (d_w t22_id) m -> own_metadata m t -> distinct_keys (tm_additional t)).
Proof.
  eexists. split; [vm_compute; reflexivity|]. split; [vm_compute; reflexivity|]. split; [vm_compute; reflexivity|].
  assert (X : exists m, a_data (s_changed (d_w t22_id)) = DMint m /\ tight m /\ forall t, own_metadata m t -> distinct_keys (tm_additional t)).
  { eexists. split; [vm_compute; reflexivity|]. split; [vm_compute; reflexivity|].
    intros t Ht. vm_compute in Ht. injection Ht as <-. unfold distinct_keys. cbn. repeat (constructor; [cbn; intuition discriminate|]). constructor. }
  destruct X as (m0 & X1 & X2 & X3). split.
  - intros m [H _]. rewrite X1 in H. injection H as <-. exact X2.
  - intros m t [H _] Ht. rewrite X1 in H. injection H as <-. exact (X3 t Ht).
Qed.
(** The Metaplex account of another mint is refused. *)
Example C26_nonvacuous : let other := metaplex_of s_env d_alice in
  let l := upd s_ledger other (mkAcc 5000 (DMpl s_mx) mpl_id) in
  let ix := build_sync_to_token_2022 tw_id (d_w t22_id) (d_a t22_id) d_u (Some other) None in
  source_error s_env l d_u (Some other) None (ETw MetaplexMetadataMismatch) /\ sync_addresses_exist s_env d_u t22_id /\
  fails s_env (tx_metas ix) SyncMetadataToToken2022 l (ETw MetaplexMetadataMismatch).
Proof.
  intros other l ix. split; [|split; [|vm_compute; reflexivity]].
  - apply se_spl; [vm_compute; reflexivity|]. apply mse_address; [vm_compute; reflexivity| |discriminate]. exists 255. split; [lia|reflexivity].
  - split; exists 255; (split; [lia|reflexivity]).
Qed.
Example C27_nonvacuous : json_round_trips s_env s_mx /\ mx_sfbp s_mx < 2 ^ 16 /\
  token_2022_metadata_to_metaplex s_env (from_metaplex s_env d_u s_mx) =
  Ok (mkDataV2 "Coin" "C" "uri" 250 (Some [mkCreator d_bob false 100]) (Some s_coll) (Some s_uses)).
Proof.
  split; [|split; [reflexivity|vm_compute; reflexivity]]. split; [|split].
  - intros cs cs' H F. injection H as <-. inversion F as [|? [ad ve sh] ? ? U F']; subst. inversion F'; subst. destruct U as (U1 & U2 & U3). cbn in U1, U2, U3. subst. reflexivity.
  - intros c H. injection H as <-. reflexivity.
  - intros c H. injection H as <-. reflexivity.
Qed.
(** Token-2022 mint without pointer, wrapped into SPL Token. *)
Definition p_ledger : ledger := upd (upd (after [x_create] (d_x [] [] 0)) s_md (mkAcc 5000 (DMpl s_mx) mpl_id)) (d_a spl_token_id) (mkAcc 300 DEmpty system_id).
Definition p_md : pubkey := metaplex_of s_env (d_w spl_token_id).
Definition p_sync : tw_instruction := build_sync_to_spl_token tw_id p_md (d_a spl_token_id) (d_w spl_token_id) d_u (Some s_md) None.
Example C28_nonvacuous : exists l',
  keys_are (tx_metas p_sync) [p_md; d_a spl_token_id; d_w spl_token_id; d_u; mpl_id; system_id; rent_sysvar_id] /\
  succeeds s_env (tx_metas p_sync) SyncMetadataToSplToken p_ledger l' /\
  lamports l' p_md = 100 /\ lamports l' (d_a spl_token_id) = 200 /\
  match a_data (l' p_md) with DMpl x => mx_creators x = Some [mkCreator d_bob false 100] /\ mx_sfbp x = 250 | _ => False end.
Proof. eexists. split; [exists [s_md]; vm_compute; reflexivity|]. split; [vm_compute; reflexivity|]. vm_compute. auto. Qed.
(** The refuted case: the collection is verified. *)
Example C28_verified_collection_nonvacuous :
  let mx := mkMpl 4 d_mintauth d_u "Coin" "C" "uri" 250 None false true None None (Some (mkCollection true d_bob)) None None None in
  let e := s_env in
  let l := upd p_ledger s_md (mkAcc 5000 (DMpl mx) mpl_id) in
  authentic_metadata e l d_u (from_metaplex e d_u mx) /\ no_data l p_md.
Proof.
  cbv zeta. split; [|vm_compute; reflexivity]. eapply am_t22_plain; [repeat split; vm_compute; reflexivity|vm_compute; reflexivity|split; vm_compute; reflexivity].
Qed.
