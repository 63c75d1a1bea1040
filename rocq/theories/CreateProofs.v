(** * CreateProofs.v — CreateMint. *)
From Verif Require Import Base Codec State Pda TokenProg Cpi Meta Processor Tac CodecProofs PdaProofs TokProofs FrameProofs ProcProofs Spec SpecLemmas.

Lemma search_bump_some e s p n b :
  1 <= b -> b <= N.of_nat n -> e_off_curve e (s ++ [inl b]) p = true -> search_bump e s p n <> 0.
Proof.
  induction n as [|n IH]; intros H1 H2 H3; [cbn in H2; lia|].
  change (search_bump e s p (S n)) with (if e_off_curve e (s ++ [inl (N.of_nat (S n))]) p then N.of_nat (S n) else search_bump e s p n).
  destruct (e_off_curve e (s ++ [inl (N.of_nat (S n))]) p) eqn:E; [lia|].
  apply IH; auto. destruct (N.eq_dec b (N.of_nat (S n))) as [->|Hne]; [congruence|lia].
Qed.
Lemma derivable_findable e s p : derivable e s p -> findable e s p.
Proof.
  intros (b & Hb & Hc). unfold findable. Transparent find_bump. unfold find_bump. Opaque find_bump.
  eapply search_bump_some; [| |exact Hc]; lia.
Qed.

(** ** Evaluating a CPI whose privileges are in order *)
Lemma invoke_signed_eval e c borrowed ix passed seeds l pdas :
  (forall m, In m (ix_metas ix) -> i_writable m = true -> ~ In (i_key m) borrowed) ->
  map_res (fun s => create_program_address e s (c_prog c)) seeds = Ok pdas ->
  has_key (c_infos c) (ix_prog ix) = true ->
  (forall m, In m (ix_metas ix) -> In (i_key m) passed /\ has_key (c_infos c) (i_key m) = true) ->
  (forall m, In m (ix_metas ix) -> i_writable m = true -> is_wr (c_infos c) (i_key m) = true) ->
  (forall m, In m (ix_metas ix) -> i_signer m = true -> is_sig (c_infos c) (i_key m) = true \/ In (i_key m) pdas) ->
  invoke_signed e c borrowed ix passed seeds l = exec_program e (ix_prog ix) (ix_metas ix) (ix_body ix) l.
Proof.
  intros Hb Hp Hk Hm Hw Hs. unfold invoke_signed.
  rewrite bind_guard_true.
  2: { apply forallb_forall. intros m Hin. apply negb_true_iff.
       destruct (i_writable m) eqn:E; [|reflexivity]. cbn [andb].
       destruct (pk_mem (i_key m) borrowed) eqn:E2; [|reflexivity]. apply pk_mem_In in E2. exfalso. eapply Hb; eauto. }
  rewrite Hp. cbn [bind]. rewrite bind_guard_true by exact Hk.
  rewrite bind_guard_true.
  2: { apply forallb_forall. intros m Hin. destruct (Hm m Hin) as [A B]. apply andb_true_iff. split; [now apply pk_mem_In|exact B]. }
  rewrite bind_guard_true.
  2: { apply forallb_forall. intros m Hin. destruct (i_writable m) eqn:E; [|reflexivity]. cbn. auto. }
  rewrite bind_guard_true.
  2: { apply forallb_forall. intros m Hin. destruct (i_signer m) eqn:E; [|reflexivity]. cbn [negb orb].
       destruct (Hs m Hin E) as [A|A]; [now rewrite A|]. apply pk_mem_In in A. rewrite A. apply orb_true_r. }
  reflexivity.
Qed.

Lemma has_key_wr ms k : is_wr ms k = true -> has_key ms k = true.
Proof. rewrite is_wr_In, has_key_In. intros (m & A & B & _). eauto. Qed.
Lemma has_key_keys ms k : In k (map i_key ms) -> has_key ms k = true.
Proof. rewrite has_key_In, in_map_iff. intros (m & A & B). eauto. Qed.

(** ** Allocation and assignment *)
Lemma allocate_inv e c borrowed k space passed seeds l l' :
  invoke_signed e c borrowed (ix_allocate k space) passed seeds l = Ok l' ->
  is_wr (c_infos c) k = true /\ data_is_empty (a_data (l k)) = true /\ a_owner (l k) = system_id /\
  l' = upd l k (with_data (DRaw (zeros space)) (l k)).
Proof.
  intro H. apply invoke_any_inv in H. destruct H as [H Hw]. cbn [ix_allocate ix_prog ix_metas ix_body] in H, Hw.
  rewrite exec_program_sys in H. cbn [sys_exec map meta_w i_key] in H. inv_ok.
  split. { apply Hw. assumption. } subst. auto.
Qed.
Lemma assign_inv e c borrowed k o passed seeds l l' :
  invoke_signed e c borrowed (ix_assign k o) passed seeds l = Ok l' ->
  (a_owner (l k) = o /\ l' = l) \/ (is_wr (c_infos c) k = true /\ a_owner (l k) = system_id /\ l' = upd l k (with_owner o (l k))).
Proof.
  intro H. apply invoke_any_inv in H. destruct H as [H Hw]. cbn [ix_assign ix_prog ix_metas ix_body] in H, Hw.
  rewrite exec_program_sys in H. cbn [sys_exec map meta_w i_key] in H.
  destruct (pk_eqb (a_owner (l k)) o) eqn:E; inv_ok; subst; [left; split; reflexivity|].
  right. split. { apply Hw. assumption. } auto.
Qed.
(** Both in a row. *)
Lemma alloc_assign_inv e c b1 b2 k space o p1 p2 s1 s2 l l1 l2 :
  o <> system_id ->
  invoke_signed e c b1 (ix_allocate k space) p1 s1 l = Ok l1 ->
  invoke_signed e c b2 (ix_assign k o) p2 s2 l1 = Ok l2 ->
  is_wr (c_infos c) k = true /\ data_is_empty (a_data (l k)) = true /\ a_owner (l k) = system_id /\
  l2 k = mkAcc (a_lamports (l k)) (DRaw (zeros space)) o /\ forall k', k' <> k -> l2 k' = l k'.
Proof.
  intros Ho H1 H2. apply allocate_inv in H1. destruct H1 as (W & D & O & ->).
  apply assign_inv in H2. rewrite upd_same in H2. cbn [with_data a_owner] in H2.
  destruct H2 as [[X _]|(_ & _ & ->)]; [congruence|].
  repeat split; auto.
  - rewrite upd_same. reflexivity.
  - intros k' Hk'. rewrite !upd_other by auto. reflexivity.
Qed.
Lemma data_empty d : data_is_empty d = true -> d = DRaw [] \/ (exists m, d = DMint m /\ m_len m = 0).
Proof.
  unfold data_is_empty. intro H. apply N.eqb_eq in H. destruct d; cbn [data_len] in H; try discriminate; auto.
  - left. f_equal. destruct l; [reflexivity|cbn [length] in H; lia].
  - right; eauto.
  - exfalso. unfold tok_space, adjust_multisig, tok_base_len, multisig_len in H. destruct (t_exts t); [discriminate|].
    destruct (_ =? 355); lia.
Qed.

Lemma all_zero_zeros n : all_zero (zeros n) = true.
Proof. unfold all_zero, zeros. apply forallb_forall. intros x Hx. apply repeat_spec in Hx. subst. reflexivity. Qed.
Lemma length_zeros n : N.of_nat (length (zeros n)) = n.
Proof. unfold zeros. rewrite repeat_length. apply N2Nat.id. Qed.

(** ** Extension initialisation by CPI *)
Lemma invoke_init_ext_inv e c p w x l l' :
  invoke_init_ext e c p w x l = Ok l' ->
  p = t22_id /\ exists m, unpack_uninit_mint (a_data (l w)) = Ok m /\
    l' = upd l w (with_data (DMint (set_mexts (m_exts m ++ [x]) (m_len m) m)) (l w)).
Proof.
  unfold invoke_init_ext, ix_init_ext; intro H. inv_ok. apply check_t22_ok in E0. subst.
  unfold invoke in H. apply invoke_any_inv in H. destruct H as [H _]. cbn [ix_prog ix_metas ix_body] in H.
  rewrite exec_program_tok in H by (right; reflexivity).
  unfold tok_exec in H. cbn [map meta_w i_key] in H. unfold tok_init_ext in H. inv_ok.
  apply set_data_inv in H. destruct H as (_ & _ & ->). split; [reflexivity|]. eauto.
Qed.
Lemma invoke_init_ext_eval e c w x l m :
  unpack_uninit_mint (a_data (l w)) = Ok m -> mint_ext_initializable x = true ->
  existsb (mint_ext_same x) (m_exts m) = false ->
  166 + tlv_total (map mint_ext_len (m_exts m ++ [x])) <= m_len m ->
  a_owner (l w) = t22_id -> is_wr (c_infos c) w = true -> has_key (c_infos c) t22_id = true ->
  invoke_init_ext e c t22_id w x l = Ok (upd l w (with_data (DMint (set_mexts (m_exts m ++ [x]) (m_len m) m)) (l w))).
Proof.
  intros Hm Hi He Hl Ho Hw Hk. unfold invoke_init_ext, ix_init_ext, check_t22_program_account.
  rewrite pk_eqb_refl. cbn [guard bind]. unfold invoke.
  rewrite (invoke_signed_eval e c [] _ _ _ _ []); cbn [ix_metas ix_prog ix_body].
  - rewrite exec_program_tok by (right; reflexivity). unfold tok_exec. cbn [map meta_w i_key].
    unfold tok_init_ext. rewrite pk_eqb_refl, Hi. cbn [guard bind]. rewrite Hm. cbn [bind]. rewrite He. cbn [negb guard bind].
    rewrite bind_guard_true by (apply N.leb_le; exact Hl).
    apply set_data_ok; [|exact Ho]. unfold is_wr. cbn. rewrite pk_eqb_refl. reflexivity.
  - intros m' [<-|[]] _ [].
  - reflexivity.
  - exact Hk.
  - intros m' [<-|[]]. cbn. split; [auto|]. now apply has_key_wr.
  - intros m' [<-|[]] _. exact Hw.
  - intros m' [<-|[]] X. discriminate.
Qed.

Lemma invoke_init_mint_inv e c p w auth frz dec ix l l' :
  ix_initialize_mint2 p w auth frz dec = Ok ix -> invoke e c [] ix [w] l = Ok l' ->
  token_program p /\ is_wr (c_infos c) w = true /\ exists m, unpack_uninit_mint (a_data (l w)) = Ok m /\ m_len m = mint_space (m_exts m) /\
    l' = upd l w (with_data (DMint (mkMint (Some auth) 0 dec true frz (m_exts m) (m_len m))) (l w)).
Proof.
  unfold ix_initialize_mint2; intros Hix H. inv_ok. apply check_spl_ok in E. subst.
  unfold invoke in H. apply invoke_any_inv in H. destruct H as [H Hw]. cbn [ix_prog ix_metas ix_body] in H, Hw.
  rewrite exec_program_tok in H by exact E.
  unfold tok_exec in H. cbn [map meta_w i_key] in H. unfold tok_init_mint in H. inv_ok.
  apply set_data_inv in H. destruct H as (W & _ & ->). split; [exact E|]. split; [apply Hw; exact W|]. eauto.
Qed.

(** The wrapped mint CreateMint produces. *)
Definition new_mint (e : env) (p w a : pubkey) (mu : mint) : mint :=
  mkMint (Some a) 0 (m_decimals mu) true (m_freeze mu)
         (if pk_eqb p t22_id then [MxConfidentialTransferMint None true None; MxMetadataPointer (Some a) (Some w)] else [])
         (if pk_eqb p t22_id then 303 else 82).

Lemma pk_t22 : pk_eqb t22_id t22_id = true. Proof. reflexivity. Qed.
Lemma pk_spl_t22 : pk_eqb spl_token_id t22_id = false. Proof. reflexivity. Qed.
Lemma default_space_303 : default_space = 303. Proof. reflexivity. Qed.

(** Keys that occur in CreateMint are different. *)
Lemma create_neq e u p : let w := wrapped_mint_of e u p in let b := backpointer_of e w in w <> u /\ b <> u /\ b <> w.
Proof. cbv zeta. split; [apply wrapped_neq_unwrapped|]. split; [apply backpointer_neq_unwrapped|apply backpointer_neq_seed]. Qed.

(** ** Inversion *)
Lemma process_create_inv e c idem l l' w b u x p rest :
  map i_key (c_infos c) = w :: b :: u :: x :: p :: rest ->
  c_prog c = tw_id ->
  process_create_mint default_customizer e c idem l = Ok l' ->
  w = wrapped_mint_of e u p /\ b = backpointer_of e w /\ token_program (a_owner (l u)) /\
  ((0 < data_len (a_data (l w)) \/ 0 < data_len (a_data (l b))) /\ idem = true /\ a_owner (l w) = p /\ a_owner (l b) = tw_id /\ l' = l \/
   data_len (a_data (l w)) = 0 /\ data_len (a_data (l b)) = 0 /\ a_owner (l w) = system_id /\ a_owner (l b) = system_id /\
   token_program p /\ is_wr (c_infos c) w = true /\ is_wr (c_infos c) b = true /\
   e_rent e (if pk_eqb p t22_id then 303 else 82) <= a_lamports (l w) /\ e_rent e 32 <= a_lamports (l b) /\
   exists mu, pod_unpack_mint (a_data (l u)) = Ok mu /\
     l' w = mkAcc (a_lamports (l w)) (DMint (new_mint e p w (authority_of e w) mu)) p /\
     l' b = mkAcc (a_lamports (l b)) (DKey u) tw_id /\
     forall k, k <> w -> k <> b -> l' k = l k).
Proof.
  intros Hk Hcp H. unfold process_create_mint in H.
  destruct (c_infos c) as [|wi [|bi [|ui [|xi [|pi additional]]]]] eqn:Hi; try discriminate H.
  cbn [map] in Hk. inversion Hk; subst w b u x p rest. clear Hk. cbv zeta in H.
  set (w := i_key wi) in *; set (b := i_key bi) in *; set (u := i_key ui) in *; set (p := i_key pi) in *.
  apply bind_ok in H; destruct H as [wm [Hw H]]. apply get_wrapped_mint_address_with_seed_ok in Hw. destruct Hw as [Hw _].
  apply bind_ok in H; destruct H as [bm [Hb H]]. apply get_backpointer_with_seed_ok in Hb. destruct Hb as [Hb _].
  apply bind_ok in H; destruct H as [[] [Hww H]]. apply guard_ok, pk_eqb_eq in Hww.
  apply bind_ok in H; destruct H as [[] [Hbb H]]. apply guard_ok, pk_eqb_eq in Hbb.
  apply bind_ok in H; destruct H as [[] [Hou H]]. apply guard_ok, token_program_eqb in Hou.
  assert (Ew : w = wrapped_mint_of e u p) by congruence. assert (Eb : b = backpointer_of e w) by congruence.
  split; [exact Ew|]. split; [exact Eb|]. split; [exact Hou|].
  assert (Nwu : w <> u) by (rewrite Ew; apply wrapped_neq_unwrapped).
  assert (Nbw : b <> w) by (rewrite Eb; apply backpointer_neq_seed).
  assert (Nbu : b <> u) by (rewrite Eb, Ew; apply backpointer_neq_unwrapped).
  destruct ((0 <? data_len (a_data (l w))) || (0 <? data_len (a_data (l b)))) eqn:Edata.
  - left. apply orb_true_iff in Edata. rewrite !N.ltb_lt in Edata. inv_ok. split; [exact Edata|]. repeat split; congruence.
  - right. apply orb_false_iff in Edata. rewrite !N.ltb_ge in Edata. destruct Edata as [Z1 Z2].
    apply bind_ok in H; destruct H as [space [Hsp H]].
    apply bind_ok in H; destruct H as [[] [Hrw H]]. apply guard_ok, N.leb_le in Hrw.
    apply bind_ok in H; destruct H as [l1 [H1 H]].
    apply bind_ok in H; destruct H as [l2 [H2 H]].
    apply bind_ok in H; destruct H as [l3 [H3 H]].
    apply bind_ok in H; destruct H as [fd [Hfd H]].
    apply bind_ok in H; destruct H as [auth [Hau H]]. apply get_wrapped_mint_authority_ok in Hau.
    apply bind_ok in H; destruct H as [ix [Hix H]].
    apply bind_ok in H; destruct H as [l4 [H4 H]].
    apply bind_ok in H; destruct H as [[] [Hrb H]]. apply guard_ok, N.leb_le in Hrb.
    apply bind_ok in H; destruct H as [l5 [H5 H]].
    apply bind_ok in H; destruct H as [l6 [H6 H]].
    pose proof (invoke_init_mint_inv _ _ _ _ _ _ _ _ _ _ Hix H4) as (Hp & Wr & m & Hm & Hlen & E4).
    rewrite Hw in H1, H2. rewrite Hb in H5, H6.
    assert (Hps : p <> system_id) by (destruct Hp as [->| ->]; discriminate).
    rewrite <- Ew in H1, H2.
    destruct (alloc_assign_inv _ _ _ _ _ _ _ _ _ _ _ _ _ _ Hps H1 H2) as (W1 & D1 & O1 & L2w & L2o).
    rewrite Hcp in H6. rewrite <- Eb in H5, H6.
    assert (Hts : tw_id <> system_id) by discriminate.
    destruct (alloc_assign_inv _ _ _ _ _ _ _ _ _ _ _ _ _ _ Hts H5 H6) as (W2 & D2 & O2 & L6b & L6o).
    (* data of the mint before InitializeMint *)
    assert (Em : space = (if pk_eqb p t22_id then 303 else 82) /\
                 a_lamports (l3 w) = a_lamports (l w) /\ a_owner (l3 w) = p /\ (forall k, k <> w -> l3 k = l k) /\
                 m_exts m = (if pk_eqb p t22_id then [MxConfidentialTransferMint None true None; MxMetadataPointer (Some (authority_of e w)) (Some w)] else []) /\
                 m_len m = (if pk_eqb p t22_id then 303 else 82)).
    { destruct (pk_eqb p t22_id) eqn:Ep.
      - cbn [default_customizer cu_space cu_init] in *. inversion Hsp; subst space.
        apply pk_eqb_eq in Ep. rewrite Ep in *. unfold default_init in H3.
        apply bind_ok in H3; destruct H3 as [l2a [H3a H3]].
        apply bind_ok in H3; destruct H3 as [au [Hau2 H3]]. apply get_wrapped_mint_authority_ok in Hau2. subst au.
        apply invoke_init_ext_inv in H3a. destruct H3a as (_ & ma & Hma & ->).
        apply invoke_init_ext_inv in H3. destruct H3 as (_ & mb & Hmb & ->).
        rewrite L2w in Hma. cbn [a_data] in Hma. unfold unpack_uninit_mint in Hma.
        rewrite all_zero_zeros, length_zeros in Hma. cbn [andb] in Hma. inv_ok. subst ma.
        rewrite upd_same in Hmb. cbn in Hmb. inversion Hmb; subst mb; clear Hmb.
        rewrite upd_same in Hm. cbn in Hm. inversion Hm; subst m; clear Hm. cbn [m_exts m_len set_mexts].
        rewrite !upd_same. cbn [with_data a_lamports a_owner]. rewrite L2w. cbn [a_lamports a_owner].
        repeat split; auto. intros k K. rewrite !upd_other by auto. auto.
      - inversion Hsp; subst space. inversion H3; subst l3.
        rewrite L2w in Hm. cbn [a_data] in Hm. unfold unpack_uninit_mint in Hm. rewrite all_zero_zeros, length_zeros in Hm.
        cbn [andb] in Hm. inv_ok. subst m. cbn [m_exts m_len]. rewrite L2w. cbn. repeat split; auto. }
    destruct Em as (Esp & E3l & E3o & E3k & Emx & Eml).
    assert (Lu : l3 u = l u) by (apply E3k; auto).
    unfold default_customizer in Hfd. cbn [cu_freeze_dec] in Hfd. unfold copy_freeze_dec in Hfd. rewrite Lu in Hfd.
    apply bind_ok in Hfd; destruct Hfd as [mu [Hmu Hfd]]. inversion Hfd; subst fd; clear Hfd.
    assert (Lb4 : l4 b = l b) by (rewrite E4, upd_other by auto; apply E3k; auto).
    rewrite Lb4 in *.
    unfold write_key in H. do 3 (apply bind_ok in H; destruct H as [[] [_ H]]). injection H as <-.
    split; [lia|]. split; [lia|]. split; [exact O1|]. split; [exact O2|]. split; [exact Hp|].
    rewrite <- Hi. split; [exact W1|]. split; [exact W2|]. split; [subst space; exact Hrw|]. split; [exact Hrb|].
    exists mu. split; [exact Hmu|]. split; [|split].
    + rewrite upd_other by auto. rewrite L6o by auto. rewrite E4, upd_same. unfold with_data. rewrite E3l, E3o.
      unfold new_mint. rewrite Emx, Eml, Hau. reflexivity.
    + rewrite upd_same. unfold with_data. rewrite L6b. reflexivity.
    + intros k K1 K2. rewrite upd_other by auto. rewrite L6o by auto. rewrite E4, upd_other by auto. apply E3k; auto.
Qed.
