(** * SyncProofs.v — SyncMetadataToToken2022. *)
From Verif Require Import Base Codec State Pda TokenProg Cpi Meta Processor Tac CodecProofs PdaProofs TokProofs FrameProofs ProcProofs Spec SpecLemmas MapProofs.

(** ** Replacing the metadata extension of a mint *)
Lemma find_map_replace t x old :
  find_map (fun e => match e with MxTokenMetadata t => Some t | _ => None end) x = Some old ->
  find_map (fun e => match e with MxTokenMetadata t => Some t | _ => None end) (replace_metadata t x) = Some t.
Proof.
  induction x as [|y x IH]; cbn [find_map replace_metadata]; [discriminate|].
  destruct y; cbn [find_map]; auto.
Qed.
Lemma replace_replace t1 t2 x : replace_metadata t2 (replace_metadata t1 x) = replace_metadata t2 x.
Proof. induction x as [|[] x IH]; cbn [replace_metadata]; congruence. Qed.
Lemma replace_same m t : ext_metadata m = Some t -> replace_metadata t (m_exts m) = m_exts m.
Proof.
  unfold ext_metadata. induction (m_exts m) as [|[] x IH]; cbn [find_map replace_metadata]; intro H; try congruence;
    rewrite IH by exact H; reflexivity.
Qed.
Lemma find_map_append t x :
  find_map (fun e => match e with MxTokenMetadata t => Some t | _ => None end) x = None ->
  find_map (fun e => match e with MxTokenMetadata t => Some t | _ => None end) (x ++ [MxTokenMetadata t]) = Some t.
Proof. induction x as [|[] x IH]; cbn [find_map app]; auto; discriminate. Qed.
Lemma replace_append t t' x :
  find_map (fun e => match e with MxTokenMetadata t => Some t | _ => None end) x = None ->
  replace_metadata t' (x ++ [MxTokenMetadata t]) = x ++ [MxTokenMetadata t'].
Proof. induction x as [|[] x IH]; cbn [find_map app replace_metadata]; intro H; try discriminate; try rewrite IH by exact H; reflexivity. Qed.
Lemma set_mexts_id m : set_mexts (m_exts m) (m_len m) m = m.
Proof. destruct m; reflexivity. Qed.

(** [l'] is [l] with the token metadata of mint [w] (initially [m]) now being [t]. *)
Definition md_image (w : pubkey) (m : mint) (t : token_metadata) (l l' : ledger) : Prop :=
  (forall k, k <> w -> l' k = l k) /\
  exists len, (len = m_len m /\ ext_metadata m = Some t \/ len = mint_space (replace_metadata t (m_exts m))) /\
    l' w = with_data (DMint (set_mexts (replace_metadata t (m_exts m)) len m)) (l w).

Lemma md_image_mint w m t0 t l l' :
  m_init m = true -> ext_metadata m = Some t0 -> md_image w m t l l' ->
  exists m', pod_unpack_mint (a_data (l' w)) = Ok m' /\ ext_metadata m' = Some t /\
    m_exts m' = replace_metadata t (m_exts m) /\ a_data (l' w) = DMint m' /\
    forall x len, set_mexts x len m' = set_mexts x len m.
Proof.
  intros Hi He (_ & len & _ & ->). eexists. cbn [with_data a_data]. rewrite pod_unpack_mint_ok by exact Hi.
  split; [reflexivity|]. split. { unfold ext_metadata. cbn [set_mexts m_exts]. eapply find_map_replace. exact He. }
  split; [reflexivity|]. split; reflexivity.
Qed.

(** ** The CPIs *)
Lemma md_cpi_inv e c ix w a s l l' :
  create_program_address e s (c_prog c) = Ok a ->
  ix_prog ix = t22_id -> ix_metas ix = [meta_w w false; meta_r a true] ->
  invoke_signed e c [] ix [w; a] [s] l = Ok l' ->
  is_wr (c_infos c) w = true /\ exec_program e t22_id [meta_w w false; meta_r a true] (ix_body ix) l = Ok l'.
Proof.
  intros Ha Hp Hm H. apply invoke_any_inv in H. destruct H as [H Hw]. rewrite Hp, Hm in *. split; [|exact H].
  apply Hw. unfold is_wr. cbn. rewrite pk_eqb_refl. reflexivity.
Qed.
Lemma md_update_inv e c w a f v s l l' :
  cpi_update_field e c t22_id w a f v s l = Ok l' ->
  is_wr (c_infos c) w = true /\ a_owner (l w) = t22_id /\
  exists m t, pod_unpack_mint (a_data (l w)) = Ok m /\ ext_metadata m = Some t /\ tm_update_authority t = Some a /\
    l' = upd l w (with_data (DMint (set_mexts (replace_metadata (tm_update f v t) (m_exts m))
                                              (mint_space (replace_metadata (tm_update f v t) (m_exts m))) m)) (l w)).
Proof.
  unfold cpi_update_field. intro H. apply invoke_any_inv in H. destruct H as [H Hw].
  cbn [ix_md_update_field ix_prog ix_metas ix_body] in H, Hw. rewrite exec_program_tok in H by (right; reflexivity).
  unfold tok_exec in H. cbn [map meta_w meta_r i_key] in H. unfold tok_md_update, md_authorized in H. inv_ok. subst.
  cbn [fst snd] in H. apply write_mint_exts_inv in H. destruct H as (W & O & ->).
  split; [apply Hw; exact W|]. split; [exact O|]. apply unpack_mint_inv in E1. destruct E1 as (Ed & Ei & _).
  do 2 eexists. rewrite Ed. rewrite pod_unpack_mint_ok by exact Ei. split; [reflexivity|]. repeat split; eauto.
Qed.
Lemma md_remove_inv e c w a k idem s l l' :
  invoke_signed e c [] (ix_md_remove_key t22_id w a k idem) [w; a] [s] l = Ok l' ->
  is_wr (c_infos c) w = true /\ a_owner (l w) = t22_id /\
  exists m t, pod_unpack_mint (a_data (l w)) = Ok m /\ ext_metadata m = Some t /\ tm_update_authority t = Some a /\
    tm_has_key k t || idem = true /\
    l' = upd l w (with_data (DMint (set_mexts (replace_metadata (tm_remove k t) (m_exts m))
                                              (mint_space (replace_metadata (tm_remove k t) (m_exts m))) m)) (l w)).
Proof.
  intro H. apply invoke_any_inv in H. destruct H as [H Hw].
  cbn [ix_md_remove_key ix_prog ix_metas ix_body] in H, Hw. rewrite exec_program_tok in H by (right; reflexivity).
  unfold tok_exec in H. cbn [map meta_w meta_r i_key] in H. unfold tok_md_remove, md_authorized in H. inv_ok. subst.
  cbn [fst snd] in *. apply write_mint_exts_inv in H. destruct H as (W & O & ->).
  split; [apply Hw; exact W|]. split; [exact O|]. apply unpack_mint_inv in E2. destruct E2 as (Ed & Ei & _).
  do 2 eexists. rewrite Ed. rewrite pod_unpack_mint_ok by exact Ei. split; [reflexivity|]. repeat split; eauto.
Qed.
Lemma md_init_inv e c w a n sy ur s l l' :
  invoke_signed e c [] (ix_md_initialize t22_id w a w a n sy ur) [w; a] [s] l = Ok l' ->
  is_wr (c_infos c) w = true /\ a_owner (l w) = t22_id /\
  exists m, pod_unpack_mint (a_data (l w)) = Ok m /\ ext_metadata m = None /\ m_auth m = Some a /\
    exists ua, (a <> system_id -> ua = Some a) /\
    l' = upd l w (with_data (DMint (set_mexts (m_exts m ++ [MxTokenMetadata (mkTM ua w n sy ur [])])
                                     (mint_space (m_exts m ++ [MxTokenMetadata (mkTM ua w n sy ur [])])) m)) (l w)).
Proof.
  intro H. apply invoke_any_inv in H. destruct H as [H Hw].
  cbn [ix_md_initialize ix_prog ix_metas ix_body] in H, Hw. rewrite exec_program_tok in H by (right; reflexivity).
  unfold tok_exec in H. cbn [map meta_w meta_r i_key] in H. unfold tok_md_initialize in H. inv_ok. subst.
  apply write_mint_exts_inv in H. destruct H as (W & O & ->).
  split; [apply Hw; exact W|]. split; [exact O|]. apply unpack_mint_inv in E2. destruct E2 as (Ed & Ei & _).
  eexists. rewrite Ed. rewrite pod_unpack_mint_ok by exact Ei. split; [reflexivity|].
  split. { destruct (ext_metadata _); [discriminate|reflexivity]. } split; [assumption|].
  exists (if pk_eqb a system_id then None else Some a). split; [|reflexivity].
  intro X. apply pk_eqb_neq in X. now rewrite X.
Qed.

(** A metadata CPI keeps an image. *)
Lemma md_image_step w m t0 t t' l l1 l2 m1 t1 :
  m_init m = true -> ext_metadata m = Some t0 ->
  md_image w m t l l1 ->
  pod_unpack_mint (a_data (l1 w)) = Ok m1 -> ext_metadata m1 = Some t1 ->
  l2 = upd l1 w (with_data (DMint (set_mexts (replace_metadata t' (m_exts m1)) (mint_space (replace_metadata t' (m_exts m1))) m1)) (l1 w)) ->
  t1 = t /\ md_image w m t' l l2.
Proof.
  intros Hi He Him Hu1 He1 ->. destruct (md_image_mint _ _ _ _ _ _ Hi He Him) as (m' & Hu & Het & Hx & Hd & Hs).
  rewrite Hu in Hu1. inversion Hu1; subst m1; clear Hu1. split; [congruence|].
  destruct Him as (Hk & len & _ & Hw). split.
  - intros k K. rewrite upd_other by auto. auto.
  - exists (mint_space (replace_metadata t' (m_exts m))). split; [auto|]. rewrite upd_same, Hx, replace_replace, Hs, Hw. reflexivity.
Qed.

(** ** Pure view of the sync *)
Definition tm_with (t : token_metadata) (n s u : string) (x : kvs) : token_metadata :=
  mkTM (tm_update_authority t) (tm_mint t) n s u x.
Fixpoint pure_add (src hm A : kvs) : kvs * kvs :=
  match src with
  | [] => (hm, A)
  | (k, v) :: r => pure_add r (hm_remove k hm) (if opt_string_eqb (hm_get k hm) (Some v) then A else assoc_set k v A)
  end.
Definition pure_remove (ks : list string) (A : kvs) : kvs :=
  fold_left (fun A k => filter (fun kv => negb (String.eqb (fst kv) k)) A) ks A.
Definition pure_set (src A : kvs) : kvs := fold_left (fun A kv => assoc_set (fst kv) (snd kv) A) src A.

Lemma update_fields_image e c w a s wm um m t0 : m_init m = true -> ext_metadata m = Some t0 ->
  forall l l1 l2 t,
  md_image w m t l l1 ->
  tm_name t = tm_name wm -> tm_symbol t = tm_symbol wm -> tm_uri t = tm_uri wm ->
  update_fields_if_changed e c t22_id w a [FName; FSymbol; FUri] wm um s l1 = Ok l2 ->
  md_image w m (tm_with t (tm_name um) (tm_symbol um) (tm_uri um) (tm_additional t)) l l2.
Proof.
  intros Hi He l l1 l2 t Him E1 E2 E3 H. cbn [update_fields_if_changed get_field] in H.
  apply bind_ok in H. destruct H as [la [Ha H]]. apply bind_ok in H. destruct H as [lb [Hb H]].
  apply bind_ok in H. destruct H as [lc [Hc H]]. inversion H; subst lc; clear H.
  assert (A : md_image w m (tm_with t (tm_name um) (tm_symbol t) (tm_uri t) (tm_additional t)) l la).
  { destruct (String.eqb_spec (tm_name wm) (tm_name um)) as [E|E].
    - inversion Ha; subst. replace (tm_with _ _ _ _ _) with t; [exact Him|]. destruct t; cbn in *; unfold tm_with; cbn; congruence.
    - apply md_update_inv in Ha. destruct Ha as (_ & _ & m1 & t1 & U & X & _ & L).
      destruct (md_image_step _ _ _ _ _ _ _ _ _ _ Hi He Him U X L) as [-> Y]. exact Y. }
  assert (B : md_image w m (tm_with t (tm_name um) (tm_symbol um) (tm_uri t) (tm_additional t)) l lb).
  { destruct (String.eqb_spec (tm_symbol wm) (tm_symbol um)) as [E|E].
    - inversion Hb; subst. rewrite <- E, <- E2. exact A.
    - apply md_update_inv in Hb. destruct Hb as (_ & _ & m1 & t1 & U & X & _ & L).
      destruct (md_image_step _ _ _ _ _ _ _ _ _ _ Hi He A U X L) as [-> Y]. exact Y. }
  destruct (String.eqb_spec (tm_uri wm) (tm_uri um)) as [E|E].
  - inversion Hc; subst. rewrite <- E, <- E3. exact B.
  - apply md_update_inv in Hc. destruct Hc as (_ & _ & m1 & t1 & U & X & _ & L).
    destruct (md_image_step _ _ _ _ _ _ _ _ _ _ Hi He B U X L) as [-> Y]. exact Y.
Qed.

Lemma sync_additional_image e c w a s m t0 l : m_init m = true -> ext_metadata m = Some t0 ->
  forall src hm l1 t hm2 l2,
  md_image w m t l l1 ->
  sync_additional e c t22_id w a s src hm l1 = Ok (hm2, l2) ->
  hm2 = fst (pure_add src hm (tm_additional t)) /\
  md_image w m (tm_with t (tm_name t) (tm_symbol t) (tm_uri t) (snd (pure_add src hm (tm_additional t)))) l l2.
Proof.
  intros Hi He. induction src as [|[k v] src IH]; intros hm l1 t hm2 l2 Him H; cbn [sync_additional pure_add] in *.
  - inversion H; subst. split; [reflexivity|]. cbn. replace (tm_with _ _ _ _ _) with t; [exact Him|]. destruct t; reflexivity.
  - apply bind_ok in H. destruct H as [la [Ha H]].
    destruct (opt_string_eqb (hm_get k hm) (Some v)).
    + inversion Ha; subst la. destruct (IH _ _ _ _ _ Him H) as [A B]. split; assumption.
    + apply md_update_inv in Ha. destruct Ha as (_ & _ & m1 & t1 & U & X & _ & L).
      destruct (md_image_step _ _ _ _ _ _ _ _ _ _ Hi He Him U X L) as [-> Y].
      destruct (IH _ _ _ _ _ Y H) as [A B]. split; assumption.
Qed.
Lemma remove_stale_image e c w a s m t0 l : m_init m = true -> ext_metadata m = Some t0 ->
  forall ks l1 t l2,
  md_image w m t l l1 ->
  remove_stale e c t22_id w a s ks l1 = Ok l2 ->
  md_image w m (tm_with t (tm_name t) (tm_symbol t) (tm_uri t) (pure_remove ks (tm_additional t))) l l2.
Proof.
  intros Hi He. induction ks as [|k ks IH]; intros l1 t l2 Him H; cbn [remove_stale] in *.
  - inversion H; subst. cbn. replace (tm_with _ _ _ _ _) with t; [exact Him|]. destruct t; reflexivity.
  - apply bind_ok in H. destruct H as [la [Ha H]].
    apply md_remove_inv in Ha. destruct Ha as (_ & _ & m1 & t1 & U & X & _ & _ & L).
    destruct (md_image_step _ _ _ _ _ _ _ _ _ _ Hi He Him U X L) as [-> Y].
    exact (IH _ _ _ Y H).
Qed.
Lemma add_all_image e c w a s m t0 l : m_init m = true -> ext_metadata m = Some t0 ->
  forall src l1 t l2,
  md_image w m t l l1 ->
  add_all e c t22_id w a s src l1 = Ok l2 ->
  md_image w m (tm_with t (tm_name t) (tm_symbol t) (tm_uri t) (pure_set src (tm_additional t))) l l2.
Proof.
  intros Hi He. induction src as [|[k v] src IH]; intros l1 t l2 Him H; cbn [add_all] in *.
  - inversion H; subst. cbn. replace (tm_with _ _ _ _ _) with t; [exact Him|]. destruct t; reflexivity.
  - apply bind_ok in H. destruct H as [la [Ha H]].
    apply md_update_inv in Ha. destruct Ha as (_ & _ & m1 & t1 & U & X & _ & L).
    destruct (md_image_step _ _ _ _ _ _ _ _ _ _ Hi He Him U X L) as [-> Y].
    exact (IH _ _ _ Y H).
Qed.

(** ** What the pure functions compute *)
Lemma pure_set_get k src A : hm_get k (pure_set src A) = match last_value k src with Some v => Some v | None => hm_get k A end.
Proof.
  revert A; induction src as [|[k' v] src IH]; intro A; cbn [pure_set fold_left last_value]; [reflexivity|].
  fold (pure_set src (assoc_set k' v A)). cbn [fst snd]. rewrite IH, assoc_set_get.
  destruct (last_value k src); [reflexivity|]. destruct (String.eqb k' k); reflexivity.
Qed.
Lemma pure_set_NoDup src A : NoDup (keys A) -> NoDup (keys (pure_set src A)).
Proof.
  revert A; induction src as [|[k' v] src IH]; intros A H; cbn [pure_set fold_left]; [exact H|].
  apply IH. now apply assoc_set_NoDup.
Qed.
Lemma pure_add_NoDup src hm A : NoDup (keys A) -> NoDup (keys (snd (pure_add src hm A))).
Proof.
  revert hm A; induction src as [|[k' v] src IH]; intros hm A H; cbn [pure_add]; [exact H|].
  apply IH. destruct (opt_string_eqb _ _); [exact H|now apply assoc_set_NoDup].
Qed.
Lemma pure_add_hm k src hm A :
  hm_get k (fst (pure_add src hm A)) = match last_value k src with Some _ => None | None => hm_get k hm end.
Proof.
  revert hm A; induction src as [|[k' v] src IH]; intros hm A; cbn [pure_add last_value]; [reflexivity|].
  rewrite IH, hm_remove_get. destruct (last_value k src); [reflexivity|]. destruct (String.eqb k' k); reflexivity.
Qed.
Lemma opt_string_eqb_eq a b : opt_string_eqb a b = true <-> a = b.
Proof.
  destruct a, b; cbn; try (split; congruence). destruct (String.eqb_spec s s0); subst; split; congruence.
Qed.
(** As long as the map agrees with the list on the keys it still has. *)
Lemma pure_add_get k src hm A :
  (forall x v, hm_get x hm = Some v -> hm_get x A = Some v) ->
  hm_get k (snd (pure_add src hm A)) = match last_value k src with Some v => Some v | None => hm_get k A end.
Proof.
  revert hm A; induction src as [|[k' v] src IH]; intros hm A Hag; cbn [pure_add last_value]; [reflexivity|].
  destruct (opt_string_eqb (hm_get k' hm) (Some v)) eqn:E.
  - apply opt_string_eqb_eq in E. rewrite IH.
    + destruct (last_value k src); [reflexivity|]. destruct (String.eqb_spec k' k) as [->|]; [|reflexivity]. now apply Hag.
    + intros x y. rewrite hm_remove_get. destruct (String.eqb k' x); [discriminate|]. apply Hag.
  - rewrite IH.
    + rewrite assoc_set_get. destruct (last_value k src); [reflexivity|]. destruct (String.eqb k' k); reflexivity.
    + intros x y. rewrite hm_remove_get, assoc_set_get. destruct (String.eqb k' x); [discriminate|]. apply Hag.
Qed.
Lemma pure_remove_get k ks A : hm_get k (pure_remove ks A) = if existsb (String.eqb k) ks then None else hm_get k A.
Proof.
  revert A; induction ks as [|x ks IH]; intro A; cbn [pure_remove fold_left existsb]; [reflexivity|].
  fold (pure_remove ks (filter (fun kv => negb (String.eqb (fst kv) x)) A)). rewrite IH, filter_get.
  rewrite (String.eqb_sym k x). destruct (String.eqb x k); cbn [orb]; [destruct (existsb _ ks); reflexivity|reflexivity].
Qed.
Lemma pure_remove_NoDup ks A : NoDup (keys A) -> NoDup (keys (pure_remove ks A)).
Proof.
  revert A; induction ks as [|x ks IH]; intros A H; cbn [pure_remove fold_left]; [exact H|].
  apply IH. now apply hm_remove_NoDup.
Qed.

(** The additional fields after a sync over existing metadata. *)
Definition synced (rank : string -> N) (src old : kvs) : kvs :=
  let r := pure_add src (hm_collect old) old in pure_remove (hm_keys rank (fst r)) (snd r).
Lemma synced_get rank src old k : NoDup (keys old) -> hm_get k (synced rank src old) = last_value k src.
Proof.
  intro Hn. unfold synced. cbv zeta. rewrite (hm_collect_id _ Hn). rewrite pure_remove_get.
  destruct (existsb (String.eqb k) (hm_keys rank (fst (pure_add src old old)))) eqn:E.
  - apply existsb_exists in E. destruct E as (x & Hx & Ex). apply String.eqb_eq in Ex; subst x.
    apply hm_keys_In in Hx.
    destruct (hm_get k (fst (pure_add src old old))) eqn:F.
    + rewrite pure_add_hm in F. destruct (last_value k src); [discriminate|reflexivity].
    + apply hm_get_None in F. contradiction.
  - rewrite pure_add_get by auto. destruct (last_value k src) eqn:L; [reflexivity|].
    destruct (hm_get k old) eqn:F; [|reflexivity]. exfalso.
    assert (X : hm_get k (fst (pure_add src old old)) = Some s) by (rewrite pure_add_hm, L; exact F).
    assert (Y : In k (keys (fst (pure_add src old old)))).
    { destruct (in_dec string_dec k (keys (fst (pure_add src old old)))) as [I|I]; [exact I|]. apply hm_get_None in I. congruence. }
    apply (hm_keys_In rank) in Y. assert (Z : existsb (String.eqb k) (hm_keys rank (fst (pure_add src old old))) = true).
    { apply existsb_exists. exists k. split; [exact Y|apply String.eqb_refl]. } congruence.
Qed.
Lemma synced_NoDup rank src old : NoDup (keys old) -> NoDup (keys (synced rank src old)).
Proof. intro H. unfold synced. apply pure_remove_NoDup, pure_add_NoDup, H. Qed.

(** ** Inversion of the whole instruction *)
Definition synced_metadata (e : env) (um t : token_metadata) : token_metadata :=
  mkTM (tm_update_authority t) (tm_mint t) (tm_name um) (tm_symbol um) (tm_uri um) (synced (e_rank e) (tm_additional um) (tm_additional t)).

Lemma authority_not_system e w : authority_of e w <> system_id.
Proof. discriminate. Qed.

Lemma process_sync_t22_inv e c l l' w a u p rest :
  map i_key (c_infos c) = w :: a :: u :: p :: rest ->
  c_prog c = tw_id ->
  process_sync_metadata_to_token_2022 e c l = Ok l' ->
  p = t22_id /\ a_owner (l w) = t22_id /\ w = wrapped_mint_of e u t22_id /\ a = authority_of e w /\
  exists um m,
    extract_token_metadata e c l u (opt_hd (skipn 4 (c_infos c))) (opt_hd (skipn 5 (c_infos c))) = Ok um /\
    pod_unpack_mint (a_data (l w)) = Ok m /\
    ((exists t, ext_metadata m = Some t /\ md_image w m (synced_metadata e um t) l l') \/
     (ext_metadata m = None /\ is_wr (c_infos c) w = true /\ m_auth m = Some a /\
      let t := mkTM (Some a) w (tm_name um) (tm_symbol um) (tm_uri um) (pure_set (tm_additional um) []) in
      (forall k, k <> w -> l' k = l k) /\
      l' w = with_data (DMint (set_mexts (m_exts m ++ [MxTokenMetadata t]) (mint_space (m_exts m ++ [MxTokenMetadata t])) m)) (l w))).
Proof.
  intros Hk Hcp H. unfold process_sync_metadata_to_token_2022 in H.
  destruct (c_infos c) as [|wi [|ai [|ui [|pi additional]]]] eqn:Hi; try discriminate H.
  cbn [map] in Hk. inversion Hk; subst w a u p rest. clear Hk. cbv zeta in H. cbn [skipn].
  replace (match additional with [] => [] | _ :: l0 => l0 end) with (tl additional) by reflexivity.
  set (w := i_key wi) in *; set (a := i_key ai) in *; set (u := i_key ui) in *; set (p := i_key pi) in *.
  apply bind_ok in H; destruct H as [[] [Hp H]]. apply guard_ok, pk_eqb_eq in Hp.
  apply bind_ok in H; destruct H as [[] [Ho H]]. apply guard_ok, pk_eqb_eq in Ho.
  apply bind_ok in H; destruct H as [wm [Hw H]]. apply get_wrapped_mint_address_with_seed_ok in Hw. destruct Hw as [Hw _].
  apply bind_ok in H; destruct H as [[] [Hww H]]. apply guard_ok, pk_eqb_eq in Hww.
  apply bind_ok in H; destruct H as [am [Ha H]]. apply get_wrapped_mint_authority_with_seed_ok in Ha. destruct Ha as [Ha _].
  apply bind_ok in H; destruct H as [[] [Haa H]]. apply guard_ok, pk_eqb_eq in Haa.
  apply bind_ok in H; destruct H as [um [Hum H]].
  apply bind_ok in H; destruct H as [m [Hm H]].
  assert (Ew : w = wrapped_mint_of e u t22_id) by congruence. assert (Ea : a = authority_of e w) by congruence.
  split; [exact Hp|]. split; [exact Ho|]. split; [exact Ew|]. split; [exact Ea|].
  exists um, m. split; [exact Hum|]. split; [exact Hm|].
  rewrite Hp in H. pose proof (pod_unpack_mint_inv _ _ Hm) as [Ed Ei].
  destruct (ext_metadata m) as [t|] eqn:Et.
  - left. exists t. split; [reflexivity|].
    assert (I0 : md_image w m t l l).
    { split; [auto|]. exists (m_len m). split; [auto|]. rewrite (replace_same _ _ Et), set_mexts_id, <- Ed.
      destruct (l w); reflexivity. }
    apply bind_ok in H; destruct H as [l1 [H1 H]]. apply bind_ok in H; destruct H as [[hm2 l2] [H2 H]]. cbn [fst snd] in H.
    apply (update_fields_image _ _ _ _ _ _ _ _ _ Ei Et _ _ _ t I0 eq_refl eq_refl eq_refl) in H1.
    apply (sync_additional_image _ _ _ _ _ _ _ _ Ei Et _ _ _ _ _ _ H1) in H2. destruct H2 as [-> H2].
    apply (remove_stale_image _ _ _ _ _ _ _ _ Ei Et _ _ _ _ H2) in H. exact H.
  - right. split; [reflexivity|].
    apply bind_ok in H; destruct H as [l1 [H1 H]].
    apply md_init_inv in H1. destruct H1 as (W & _ & m0 & Hm0 & _ & Hau & ua & Hua & L1).
    rewrite Hm in Hm0. inversion Hm0; subst m0; clear Hm0.
    assert (Hsa : a <> system_id) by (rewrite Ea; apply authority_not_system).
    rewrite (Hua Hsa) in L1. rewrite <- Hi. split; [exact W|]. split; [exact Hau|]. cbv zeta.
    set (t1 := mkTM (Some a) w (tm_name um) (tm_symbol um) (tm_uri um) []) in *.
    set (m1 := set_mexts (m_exts m ++ [MxTokenMetadata t1]) (mint_space (m_exts m ++ [MxTokenMetadata t1])) m) in *.
    assert (E1 : ext_metadata m1 = Some t1).
    { unfold m1, ext_metadata. cbn [set_mexts m_exts]. apply find_map_append. exact Et. }
    assert (R : forall t, replace_metadata t (m_exts m1) = m_exts m ++ [MxTokenMetadata t]).
    { intro t. unfold m1. cbn [set_mexts m_exts]. apply replace_append. exact Et. }
    assert (I0 : md_image w m1 t1 l1 l1).
    { split; [auto|]. exists (m_len m1). split; [auto|]. rewrite (replace_same _ _ E1), set_mexts_id.
      rewrite L1, upd_same. reflexivity. }
    assert (Ei1 : m_init m1 = true) by exact Ei. apply (add_all_image _ _ _ _ _ _ _ _ Ei1 E1 _ _ _ _ I0) in H. destruct H as (K & len & Hlen & Hw').
    rewrite R in Hlen, Hw'. cbn [t1 tm_additional] in *. split.
    + intros k Hk. rewrite (K k Hk), L1. now rewrite upd_other by auto.
    + rewrite Hw', L1, upd_same. unfold tm_with. cbn [tm_update_authority tm_mint tm_name tm_symbol tm_uri t1].
      assert (Hl : len = mint_space (m_exts m ++ [MxTokenMetadata (mkTM (Some a) w (tm_name um) (tm_symbol um) (tm_uri um) (pure_set (tm_additional um) []))])).
      { destruct Hlen as [[Hlen Ht]|Hlen]; [|exact Hlen]. rewrite E1 in Ht. assert (Hx : forall x y : token_metadata, Some x = Some y -> x = y) by congruence. apply Hx in Ht. clear Hx.
        unfold tm_with in Ht. cbn [t1 tm_update_authority tm_mint tm_name tm_symbol tm_uri tm_additional] in Ht.
        rewrite <- Ht. exact Hlen. }
      rewrite Hl. reflexivity.
Qed.
