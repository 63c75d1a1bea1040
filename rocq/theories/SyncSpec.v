(** * SyncSpec.v — the metadata instructions, in the vocabulary of Spec.v. *)
From Verif Require Import Base Codec State Pda TokenProg Cpi Meta Processor Tac CodecProofs PdaProofs TokProofs FrameProofs ProcProofs Spec SpecLemmas WrapProofs CreateProofs CreateProofs2 CreateSpec MapProofs SyncProofs SyncProofs2 CloseProofs MetaProofs.

Lemma sync_t22_outcome e accounts l :
  outcome e accounts SyncMetadataToToken2022 l = process_sync_metadata_to_token_2022 e (mkCtx tw_id accounts) l.
Proof. rewrite outcome_instr by exact I. reflexivity. Qed.
Lemma sync_spl_outcome e accounts l :
  outcome e accounts SyncMetadataToSplToken l = process_sync_metadata_to_spl_token e (mkCtx tw_id accounts) l.
Proof. rewrite outcome_instr by exact I. reflexivity. Qed.

(** ** Every source is either authentic or refused with the documented error *)
Lemma pod_unpack_mint_err d err : pod_unpack_mint d = Err err <-> unreadable_mint d err.
Proof.
  split.
  - destruct d; cbn; intro H; try (injection H as <-; apply um_other; intros; discriminate).
    + destruct (all_zero l && (82 <=? N.of_nat (length l))) eqn:E.
      * replace (mint_base_len <=? N.of_nat (length l)) with (82 <=? N.of_nat (length l)) in H by reflexivity. rewrite E in H. injection H as <-. apply andb_true_iff in E. destruct E as [A B]. apply N.leb_le in B.
        apply um_zeros; [|lia]. apply Forall_forall. intros x Hx. unfold all_zero in A. rewrite forallb_forall in A. apply A in Hx. apply N.eqb_eq in Hx. congruence.
      * change (82 <=? N.of_nat (length l)) with (mint_base_len <=? N.of_nat (length l)) in E. rewrite E in H. injection H as <-. apply um_bytes. intros [A B].
        apply andb_false_iff in E. destruct E as [E|E].
        -- assert (all_zero l = true); [|congruence]. unfold all_zero. apply forallb_forall. intros x Hx. rewrite Forall_forall in A. apply A in Hx. subst x. apply N.eqb_refl.
        -- apply N.leb_gt in E. unfold mint_base_len in E. lia.
    + destruct (m_init m) eqn:E; [discriminate|]. injection H as <-. apply um_blank. exact E.
  - intro H. destruct H as [m Hm|bs A B|bs N|d N1 N2]; cbn.
    + rewrite Hm. reflexivity.
    + replace (all_zero bs && (mint_base_len <=? N.of_nat (length bs))) with true; [reflexivity|]. symmetry. apply andb_true_iff. split.
      * unfold all_zero. apply forallb_forall. intros x Hx. rewrite Forall_forall in A. apply A in Hx. subst x. apply N.eqb_refl.
      * apply N.leb_le. unfold mint_base_len. lia.
    + destruct (all_zero bs && (mint_base_len <=? N.of_nat (length bs))) eqn:E; [|reflexivity]. exfalso. apply N.
      apply andb_true_iff in E. destruct E as [A B]. apply N.leb_le in B. unfold mint_base_len in B. split; [|lia].
      apply Forall_forall. intros x Hx. unfold all_zero in A. rewrite forallb_forall in A. apply A in Hx. apply N.eqb_eq in Hx. congruence.
    + destruct d; cbn; try reflexivity; exfalso; [eapply N2|eapply N1]; reflexivity.
Qed.

#[local] Transparent find_bump.
Lemma findable_derivable e s p : findable e s p -> derivable e s p.
Proof.
  unfold findable, find_bump. intro H. destruct (search_bump_ok e s p 255 _ eq_refl H) as (A & B & _).
  exists (search_bump e s p 255). split; [lia|exact A].
Qed.
#[local] Opaque find_bump.
Lemma metaplex_find_cases e u :
  (derivable e (metaplex_seeds u) mpl_id /\ exists b, metaplex_find_pda e u = Ok (metaplex_of e u, b)) \/
  (~ derivable e (metaplex_seeds u) mpl_id /\ metaplex_find_pda e u = Err EPanic).
Proof.
  unfold metaplex_find_pda. destruct (N.eq_dec (find_bump e (metaplex_seeds u) mpl_id) 0) as [E|E].
  - right. split; [intro D; apply (derivable_findable _ _ _ D); exact E|]. unfold find_program_address. rewrite E. reflexivity.
  - left. split; [apply findable_derivable; exact E|]. exists (find_bump e (metaplex_seeds u) mpl_id). apply find_pda_findable. exact E.
Qed.
Lemma read_metaplex_err e l u src err :
  read_metaplex_for_mint e l u src = Err err <-> metaplex_source_error e l u (option_map i_key src) err.
Proof.
  unfold read_metaplex_for_mint. destruct src as [i|]; cbn [of_option bind option_map].
  2:{ split; [intro H; injection H as <-; constructor|]. intro H; inversion H; reflexivity. }
  destruct (pk_eqb (a_owner (l (i_key i))) mpl_id) eqn:Eo; cbn [guard bind].
  2:{ apply pk_eqb_neq in Eo. split; [intro H; injection H as <-; constructor; exact Eo|]. intro H; inversion H; subst; try congruence; try reflexivity. }
  apply pk_eqb_eq in Eo.
  destruct (metaplex_find_cases e u) as [(D & b & ->)|(D & ->)]; cbn [bind fst].
  2:{ split; [intro H; injection H as <-; apply mse_underivable; assumption|]. intro H; inversion H; subst; try congruence; try tauto. }
  destruct (pk_eqb (i_key i) (metaplex_of e u)) eqn:Ek; cbn [guard bind].
  2:{ apply pk_eqb_neq in Ek. split; [intro H; injection H as <-; apply mse_address; assumption|]. intro H; inversion H; subst; try congruence; try tauto. }
  apply pk_eqb_eq in Ek. rewrite Ek in *. unfold metaplex_to_token_2022_metadata. split.
  - intro H. destruct (a_data (l (metaplex_of e u))) eqn:Ed; try discriminate; injection H as <-; apply mse_data; auto; congruence.
  - intro H. inversion H; subst; try congruence; try tauto. destruct (a_data (l (metaplex_of e u))) eqn:Ed; try reflexivity. exfalso. match goal with X : forall _, _ <> _ |- _ => eapply X; reflexivity end.
Qed.

(** Which mint, pointer and owner apply is determined, so at most one clause applies. *)
Lemma extract_err e c l u src op err :
  (forall i, src = Some i \/ op = Some i -> In i (c_infos c)) ->
  extract_token_metadata e c l u src op = Err err <-> source_error e l u (option_map i_key src) (option_map i_key op) err.
Proof.
  intro Hin. unfold extract_token_metadata. assert (D25 : t22_id <> mpl_id) by discriminate.
  destruct (pk_eqb (a_owner (l u)) t22_id) eqn:E2.
  - apply pk_eqb_eq in E2. unfold resolve_token_2022_source_metadata.
    destruct (pod_unpack_mint (a_data (l u))) as [m|x] eqn:Em; cbn [bind].
    2:{ split; [intro H; injection H as <-; apply se_unreadable; [exact E2|apply pod_unpack_mint_err; exact Em]|].
        assert (Nm : forall p m, ~ mint_account l u p m) by (intros p m (_ & A & B); rewrite A in Em; cbn in Em; rewrite B in Em; discriminate).
        intro H; inversion H; subst; try (exfalso; eapply Nm; eassumption); try congruence; try (rewrite E2 in *; discriminate).
        match goal with X : unreadable_mint _ _ |- _ => apply pod_unpack_mint_err in X; congruence end. }
    apply pod_unpack_mint_inv in Em as Hmi. assert (MA : mint_account l u t22_id m) by (split; assumption).
    assert (Ns : a_owner (l u) <> spl_token_id) by (rewrite E2; discriminate).
    assert (Nu : forall x, ~ unreadable_mint (a_data (l u)) x) by (intros x X; apply pod_unpack_mint_err in X; congruence).
    assert (Fm : forall m', mint_account l u t22_id m' -> m' = m) by (intros m' X; destruct (mint_account_fun _ _ _ _ _ _ X MA); assumption).
    destruct (ext_pointer m) as [[au addr]|] eqn:Ep.
    + assert (Fp : forall a, pointer_of m a -> a = addr) by (intros a [au' X]; congruence).
      assert (Np : ~ no_pointer m) by (unfold no_pointer; congruence).
      destruct addr as [a|]; cbn [of_option bind].
      2:{ split; [intro H; injection H as <-; eapply se_unset; [exact MA|exists au; exact Ep]|].
          intro H; inversion H; subst; try tauto; try congruence;
          repeat match goal with X : mint_account l u t22_id _ |- _ => apply Fm in X; subst end; try tauto;
          try match goal with X : pointer_of m (Some _) |- _ => apply Fp in X; discriminate end; try reflexivity.
          exfalso; eapply Nu; eassumption. }
      assert (P : pointer_of m (Some a)) by (exists au; exact Ep).
      destruct (pk_eqb a u) eqn:Eau.
      * apply pk_eqb_eq in Eau. subst a. destruct (ext_metadata m) as [t|] eqn:Et; cbn [of_option].
        -- split; [discriminate|]. intro H; inversion H; subst; try tauto; try congruence;
           repeat match goal with X : mint_account l u t22_id _ |- _ => apply Fm in X; subst end; try tauto;
           try match goal with X : pointer_of m _ |- _ => apply Fp in X; congruence end.
           all: exfalso; first [eapply Nu; eassumption | match goal with X : forall t, ~ own_metadata _ t |- _ => eapply X; exact Et end].
        -- split; [intro H; injection H as <-; eapply se_self; [exact MA|exact P|unfold own_metadata; congruence]|].
           intro H; inversion H; subst; try tauto; try congruence;
           repeat match goal with X : mint_account l u t22_id _ |- _ => apply Fm in X; subst end; try tauto;
           try match goal with X : pointer_of m _ |- _ => apply Fp in X; congruence end; try reflexivity.
           exfalso. eapply Nu; eassumption.
      * apply pk_eqb_neq in Eau.
        assert (Red : forall s o x, source_error e l u s o x ->
            (s = None /\ x = ENotEnoughAccountKeys) \/ (exists k, s = Some k /\ k <> a /\ x = ETw MetadataPointerMismatch) \/
            (s = Some a /\ a_owner (l a) = t22_id /\ x = EInvalidAccountData) \/
            (s = Some a /\ a_owner (l a) = mpl_id /\ x = EInvalidAccountData /\ forall y, a_data (l a) <> DMpl y) \/
            (s = Some a /\ a_owner (l a) <> t22_id /\ a_owner (l a) <> mpl_id /\ o = None /\ x = ENotEnoughAccountKeys) \/
            (s = Some a /\ a_owner (l a) <> t22_id /\ a_owner (l a) <> mpl_id /\ (exists p, o = Some p /\ p <> a_owner (l a)) /\ x = EInvalidAccountOwner) \/
            (s = Some a /\ a_owner (l a) <> t22_id /\ a_owner (l a) <> mpl_id /\ o = Some (a_owner (l a)) /\
              (e_emit e (a_owner (l a)) a (l a) = Err x \/ e_emit e (a_owner (l a)) a (l a) = Ok (Some (a_owner (l a), Err x)) \/
               ((e_emit e (a_owner (l a)) a (l a) = Ok None \/ exists p r, e_emit e (a_owner (l a)) a (l a) = Ok (Some (p, r)) /\ p <> a_owner (l a)) /\ x = ETw ExternalProgramReturnedNoData)))).
        { intros s o x X. inversion X; subst; try (exfalso; tauto); try (exfalso; congruence);
            repeat match goal with X : mint_account l u t22_id _ |- _ => apply Fm in X; subst end; try (exfalso; tauto);
            repeat match goal with X : pointer_of m (Some _) |- _ => apply Fp in X; first [injection X as -> | idtac] end;
            try (exfalso; congruence); try (exfalso; eapply Nu; eassumption).
          - match goal with X : pointer_of m None |- _ => apply Fp in X; discriminate end.
          - left; auto.
          - right; left. eexists; split; [reflexivity|auto].
          - do 2 right; left; auto.
          - do 3 right; left; auto.
          - do 4 right; left; auto.
          - do 5 right; left; eauto 10.
          - do 6 right; eauto 10. }
        destruct src as [md|]; cbn [of_option bind option_map].
        2:{ split; [intro H; injection H as <-; eapply se_missing; eassumption|]. intro X. apply Red in X.
            destruct X as [(_ & ->)|[(k & X & _)|[(X & _)|[(X & _)|[(X & _)|[(X & _)|(X & _)]]]]]]; try discriminate X. reflexivity. }
        destruct (pk_eqb (i_key md) a) eqn:Ek; cbn [guard bind].
        2:{ apply pk_eqb_neq in Ek. split; [intro H; injection H as <-; eapply se_mismatch; eassumption|]. intro X. apply Red in X.
            destruct X as [(X & _)|[(k & _ & _ & ->)|[(X & _)|[(X & _)|[(X & _)|[(X & _)|(X & _)]]]]]]; try discriminate X; try congruence. }
        apply pk_eqb_eq in Ek. rewrite Ek.
        destruct (pk_eqb (a_owner (l a)) t22_id) eqn:Eo2.
        { apply pk_eqb_eq in Eo2. split; [intro H; injection H as <-; eapply se_token_2022; eassumption|]. intro X. apply Red in X.
          destruct X as [(X & _)|[(k & X & Y & _)|[(_ & _ & ->)|[(_ & X & _)|[(_ & X & _)|[(_ & X & _)|(_ & X & _)]]]]]]; congruence. }
        apply pk_eqb_neq in Eo2. destruct (pk_eqb (a_owner (l a)) mpl_id) eqn:Eom.
        { apply pk_eqb_eq in Eom. unfold metaplex_to_token_2022_metadata. split.
          - intro H. destruct (a_data (l a)) eqn:Ed; try discriminate; injection H as <-; eapply se_metaplex; eauto; congruence.
          - intro X. apply Red in X. destruct X as [(X & _)|[(k & X & Y & _)|[(_ & X & _)|[(_ & _ & -> & N)|[(_ & _ & X & _)|[(_ & _ & X & _)|(_ & _ & X & _)]]]]]]; try congruence.
            destruct (a_data (l a)) eqn:Ed; try reflexivity. exfalso. eapply N; reflexivity. }
        apply pk_eqb_neq in Eom. destruct op as [oi|]; cbn [of_option bind option_map].
        2:{ split; [intro H; injection H as <-; eapply se_no_owner_program; eassumption|]. intro X. apply Red in X.
            destruct X as [(X & _)|[(k & X & Y & _)|[(_ & X & _)|[(_ & X & _)|[(_ & _ & _ & _ & ->)|[(_ & _ & _ & (p & X & _) & _)|(_ & _ & _ & X & _)]]]]]]; congruence. }
        destruct (pk_eqb (i_key oi) (a_owner (l a))) eqn:Eoi; cbn [guard bind].
        2:{ apply pk_eqb_neq in Eoi. split; [intro H; injection H as <-; eapply se_wrong_owner_program; eassumption|]. intro X. apply Red in X.
            destruct X as [(X & _)|[(k & X & Y & _)|[(_ & X & _)|[(_ & X & _)|[(_ & _ & _ & X & _)|[(_ & _ & _ & _ & ->)|(_ & _ & _ & X & _)]]]]]]; congruence. }
        apply pk_eqb_eq in Eoi. rewrite Eoi. unfold cpi_emit_and_decode.
        replace (has_key (c_infos c) (a_owner (l a)) && has_key (c_infos c) a) with true.
        2:{ symmetry. apply andb_true_iff. rewrite !has_key_In. split; [exists oi|exists md]; split; try congruence; apply Hin; auto. }
        cbn [guard bind]. split.
        { intro H. eapply se_foreign; try eassumption.
          destruct (e_emit e (a_owner (l a)) a (l a)) as [[[p r]|]|x]; cbn [bind] in H.
          - destruct (pk_eqb p (a_owner (l a))) eqn:Epk.
            + apply pk_eqb_eq in Epk. subst p. right; left. rewrite H. reflexivity.
            + apply pk_eqb_neq in Epk. injection H as <-. right; right. split; [right; eauto|reflexivity].
          - injection H as <-. right; right. auto.
          - injection H as <-. auto. }
        { intro X. apply Red in X.
          destruct X as [(X & _)|[(k & X & Y & _)|[(_ & X & _)|[(_ & X & _)|[(_ & _ & _ & X & _)|[(_ & _ & _ & (p & X & Y) & _)|(_ & _ & _ & _ & X)]]]]]]; try congruence.
          destruct X as [->|[->|([->|(p & r & -> & N)] & ->)]]; cbn [bind]; try reflexivity.
          - rewrite pk_eqb_refl. reflexivity.
          - apply pk_eqb_neq in N. rewrite N. reflexivity. }
    + assert (Np : forall a, ~ pointer_of m a) by (intros a [au X]; congruence).
      rewrite read_metaplex_err. split; [intro H; eapply se_plain; eauto|].
      intro X; inversion X; subst; try tauto; try congruence;
        repeat match goal with X : mint_account l u t22_id _ |- _ => apply Fm in X; subst end; try (exfalso; tauto); try assumption;
        try (exfalso; eapply Np; eassumption); exfalso; eapply Nu; eassumption.
  - apply pk_eqb_neq in E2. assert (Nm : forall m, ~ mint_account l u t22_id m) by (intros m (A & _); congruence).
    destruct (pk_eqb (a_owner (l u)) spl_token_id) eqn:Es.
    + apply pk_eqb_eq in Es. rewrite read_metaplex_err. split; [intro H; eapply se_spl; eauto|].
      intro X; inversion X; subst; try tauto; try congruence; exfalso; eapply Nm; eassumption.
    + apply pk_eqb_neq in Es. split; [intro H; injection H as <-; apply se_not_a_token; assumption|].
      intro X; inversion X; subst; try tauto; try congruence; exfalso; eapply Nm; eassumption.
Qed.

(** ** SyncMetadataToToken2022 *)
Lemma in_sync_same um t : in_sync um t ->
  tm_name t = tm_name um /\ tm_symbol t = tm_symbol um /\ tm_uri t = tm_uri um /\ same_fields (tm_additional um) (tm_additional t).
Proof.
  intros (A & B & C & D & F). do 3 (split; [assumption|]). split; [exact D|]. intros k v.
  rewrite field_value_last, <- F, hm_get_In by exact D. reflexivity.
Qed.
Lemma other_replace t x : filter (fun y => negb (mint_ext_kind y =? 19)) (replace_metadata t x) = filter (fun y => negb (mint_ext_kind y =? 19)) x.
Proof. induction x as [|y x IH]; [reflexivity|]. destruct y; cbn in *; rewrite ?IH; try reflexivity. Qed.

Lemma sync_distinct l w :
  (forall m t, mint_data l w m -> own_metadata m t -> distinct_keys (tm_additional t)) ->
  (forall m t, pod_unpack_mint (a_data (l w)) = Ok m -> ext_metadata m = Some t -> NoDup (keys (tm_additional t))).
Proof. intros H m t Hm Ht. apply pod_unpack_mint_inv in Hm. exact (H m t Hm Ht). Qed.

Lemma sync_copies_l e accounts l l' w a u p :
  keys_are accounts [w; a; u; p] -> succeeds e accounts SyncMetadataToToken2022 l l' ->
  (forall m t, mint_data l w m -> own_metadata m t -> distinct_keys (tm_additional t)) ->
  w = wrapped_mint_of e u t22_id /\ a = authority_of e w /\
  exists src m' t', authentic_metadata e l u src /\ mint_account l' w t22_id m' /\ own_metadata m' t' /\
    tm_name t' = tm_name src /\ tm_symbol t' = tm_symbol src /\ tm_uri t' = tm_uri src /\
    same_fields (tm_additional src) (tm_additional t').
Proof.
  intros [more Hk] H Hd. unfold succeeds in H. rewrite sync_t22_outcome in H.
  destruct (process_sync_t22_inv _ (mkCtx tw_id accounts) _ _ _ _ _ _ _ Hk eq_refl H) as (_ & _ & Ew & Ea & _).
  split; [exact Ew|]. split; [exact Ea|].
  destruct (process_sync_t22_result _ (mkCtx tw_id accounts) _ _ _ _ _ _ _ Hk eq_refl H (sync_distinct _ _ Hd)) as (um & m & m1 & t1 & Hum & Hm & Hd1 & Hi1 & Ht1 & Hsy & Ho & Ho1 & _).
  exists um, m1, t1. split; [eapply extract_authentic; exact Hum|]. split; [split; [exact Ho1|split; assumption]|]. split; [exact Ht1|].
  apply in_sync_same. exact Hsy.
Qed.
Lemma sync_confined_l e accounts l l' w a u p :
  keys_are accounts [w; a; u; p] -> succeeds e accounts SyncMetadataToToken2022 l l' ->
  (forall m t, mint_data l w m -> own_metadata m t -> distinct_keys (tm_additional t)) ->
  (exists m m', mint_account l w t22_id m /\ mint_account l' w t22_id m' /\ same_core m m' /\ (tight m -> tight m') /\
     (forall t, own_metadata m t -> exists t', own_metadata m' t' /\ tm_update_authority t' = tm_update_authority t /\ tm_mint t' = tm_mint t) /\
     ((forall t, ~ own_metadata m t) -> exists t', own_metadata m' t' /\ tm_update_authority t' = Some a /\ tm_mint t' = w)) /\
  lamports l' w = lamports l w /\ forall k, k <> w -> l' k = l k.
Proof.
  intros [more Hk] H Hd. unfold succeeds in H. rewrite sync_t22_outcome in H.
  destruct (process_sync_t22_result _ (mkCtx tw_id accounts) _ _ _ _ _ _ _ Hk eq_refl H (sync_distinct _ _ Hd)) as (um & m & m1 & t1 & Hum & Hm & Hd1 & Hi1 & Ht1 & Hsy & Ho & Ho1 & Hl & Hother & len & x & Em1 & Hlen & Hx).
  apply pod_unpack_mint_inv in Hm. split; [|split; assumption].
  exists m, m1. split; [split; [exact Ho|exact Hm]|]. split; [split; [exact Ho1|split; assumption]|]. split; [|split; [|split]].
  - subst m1. unfold same_core, other_extensions. cbn. do 4 (split; [reflexivity|]).
    destruct Hx as [(t & _ & -> & _)|(_ & -> & _)]; [apply other_replace|]. rewrite filter_app. cbn. apply app_nil_r.
  - unfold tight. subst m1. cbn. intro T. destruct Hlen as [[-> ->]|L]; auto.
  - unfold own_metadata. intros t Ht. exists t1. split; [exact Ht1|]. destruct Hx as [(t0 & Ht0 & _ & A & B)|(N & _)]; [|congruence].
    rewrite Ht in Ht0. injection Ht0 as <-. auto.
  - unfold own_metadata. intro N. exists t1. split; [exact Ht1|]. destruct Hx as [(t0 & Ht0 & _ & A & B)|(_ & _ & A & B)]; [exfalso; eapply N; exact Ht0|]. auto.
Qed.
Lemma sync_twice_l e accounts l l1 l2 w a u p :
  keys_are accounts [w; a; u; p] ->
  (forall m, mint_data l w m -> tight m) ->
  (forall m t, mint_data l w m -> own_metadata m t -> distinct_keys (tm_additional t)) ->
  succeeds e accounts SyncMetadataToToken2022 l l1 -> succeeds e accounts SyncMetadataToToken2022 l1 l2 ->
  forall k, l2 k = l1 k.
Proof.
  intros [more Hk] Ht Hd H1 H2. unfold succeeds in *. rewrite sync_t22_outcome in H1, H2.
  eapply (process_sync_t22_twice _ (mkCtx tw_id accounts)); [exact Hk|reflexivity| |apply sync_distinct; exact Hd|exact H1|exact H2].
  intros m Hm. apply Ht. apply pod_unpack_mint_inv. exact Hm.
Qed.
Lemma sync_t22_findable e accounts l l' w a u p more :
  map i_key accounts = w :: a :: u :: p :: more ->
  process_sync_metadata_to_token_2022 e (mkCtx tw_id accounts) l = Ok l' ->
  findable e (wrapped_mint_seeds u t22_id) tw_id /\ findable e (wrapped_mint_authority_seeds w) tw_id.
Proof.
  intros Hk H. unfold process_sync_metadata_to_token_2022 in H. cbn [c_infos] in H.
  destruct accounts as [|i1 [|i2 [|i3 [|i4 rest]]]]; try discriminate. cbn in Hk. injection Hk as K1 K2 K3 K4 _.
  cbv zeta in H. rewrite K1, K2, K3, K4 in H.
  apply bind_ok in H. destruct H as (? & _ & H). apply bind_ok in H. destruct H as (? & _ & H).
  apply bind_ok in H. destruct H as ([w1 b1] & F1 & H). apply bind_ok in H. destruct H as (? & _ & H).
  apply bind_ok in H. destruct H as ([a1 b2] & F2 & H). 
  apply find_pda_ok in F1. apply find_pda_ok in F2. destruct F1 as (_ & -> & N1 & _). destruct F2 as (_ & -> & N2 & _). split; [exact N1|exact N2].
Qed.
Lemma sync_again_l e accounts l l1 w a u p :
  keys_are accounts [w; a; u; p] ->
  (forall m t, mint_data l w m -> own_metadata m t -> distinct_keys (tm_additional t)) ->
  (forall src, authentic_metadata e l u src -> distinct_keys (tm_additional src)) ->
  succeeds e accounts SyncMetadataToToken2022 l l1 -> succeeds e accounts SyncMetadataToToken2022 l1 l1.
Proof.
  intros [more Hk] Hd Hs H1. unfold succeeds in *. rewrite sync_t22_outcome in H1 |- *.
  destruct (process_sync_t22_result _ (mkCtx tw_id accounts) _ _ _ _ _ _ _ Hk eq_refl H1 (sync_distinct _ _ Hd)) as (um & m & m1 & t1 & Hum & Hm & Hd1 & Hi1 & Ht1 & Hsy & Ho & Ho1 & _ & Hother & _).
  destruct (process_sync_t22_inv _ (mkCtx tw_id accounts) _ _ _ _ _ _ _ Hk eq_refl H1) as (Ep & _ & Ew & Ea & _).
  destruct (sync_t22_findable _ _ _ _ _ _ _ _ _ Hk H1) as [F1 F2].
  assert (Hu : u <> w) by (rewrite Ew; apply unwrapped_neq_wrapped).
  eapply (process_sync_t22_noop _ (mkCtx tw_id accounts)); [exact Hk|reflexivity|exact Ep|exact Ho1|exact Ew|exact Ea|exact F1|exact F2| |exact Ht1| |exact Hsy|].
  - rewrite Hd1. apply pod_unpack_mint_ok. exact Hi1.
  - exact (extract_frame _ _ _ _ _ _ _ _ Hother Hu Ho Ho1 _ Hum).
  - apply Hs. eapply extract_authentic. exact Hum.
Qed.

(** ** Refusals *)
Definition nth_key (accounts : list info) (n : nat) : option pubkey := nth_error (map i_key accounts) n.
Lemma opt_hd_skipn accounts n : option_map i_key (opt_hd (skipn n accounts)) = nth_error (map i_key accounts) n.
Proof. revert accounts. induction n as [|n IH]; intros [|i r]; try reflexivity. apply IH. Qed.
Lemma opt_hd_In accounts n i : opt_hd (skipn n accounts) = Some i -> In i accounts.
Proof.
  revert accounts. induction n as [|n IH]; intros [|j r]; cbn; try discriminate.
  - intro H; injection H as <-. auto.
  - intro H. right. apply IH. exact H.
Qed.
Lemma sync_t22_refused_l e accounts l w a u err :
  keys_are accounts [w; a; u; t22_id] -> sync_addresses_exist e u t22_id ->
  w = wrapped_mint_of e u t22_id -> a = authority_of e w -> a_owner (l w) = t22_id ->
  source_error e l u (nth_error (map i_key accounts) 4) (nth_error (map i_key accounts) 5) err ->
  fails e accounts SyncMetadataToToken2022 l err.
Proof.
  intros [more Hk] [D1 D2] Ew Ea Ho Hs. unfold fails. rewrite sync_t22_outcome.
  rewrite <- !opt_hd_skipn in Hs. apply (extract_err e (mkCtx tw_id accounts)) in Hs; [|intros i [X|X]; exact (opt_hd_In _ _ _ X)].
  destruct accounts as [|i1 [|i2 [|i3 [|i4 rest]]]]; try discriminate. cbn in Hk. injection Hk as K1 K2 K3 K4 _.
  unfold process_sync_metadata_to_token_2022. cbn [c_infos]. cbv zeta. rewrite K1, K2, K3, K4, Ho, !pk_eqb_refl. cbn [guard bind].
  unfold get_wrapped_mint_address_with_seed, get_wrapped_mint_address_with_seed_for_program. rewrite (findable_get _ _ _ D1). cbn [bind fst].
  change (pda e (wrapped_mint_seeds u t22_id) tw_id) with (wrapped_mint_of e u t22_id). rewrite <- Ew, pk_eqb_refl. cbn [guard bind].
  rewrite <- Ew in D2.
  unfold get_wrapped_mint_authority_with_seed, get_wrapped_mint_authority_with_seed_for_program. rewrite (findable_get _ _ _ D2). cbn [bind fst].
  change (pda e (wrapped_mint_authority_seeds w) tw_id) with (authority_of e w). rewrite <- Ea, pk_eqb_refl. cbn [guard bind].
  replace (opt_hd (tl rest)) with (opt_hd (skipn 5 (i1 :: i2 :: i3 :: i4 :: rest))) by (destruct rest; reflexivity).
  cbn [skipn] in Hs |- *. rewrite Hs. reflexivity.
Qed.
Lemma sync_spl_refused_l e accounts l md w a u sy rn err :
  keys_are accounts [md; a; w; u; mpl_id; sy; rn] -> sync_addresses_exist e u spl_token_id -> derivable e (metaplex_seeds w) mpl_id ->
  w = wrapped_mint_of e u spl_token_id -> a = authority_of e w -> md = metaplex_of e w -> a_owner (l w) = spl_token_id ->
  source_error e l u (nth_error (map i_key accounts) 7) (nth_error (map i_key accounts) 8) err ->
  fails e accounts SyncMetadataToSplToken l err.
Proof.
  intros [more Hk] [D1 D2] D3 Ew Ea Emd Ho Hs. unfold fails. rewrite sync_spl_outcome.
  rewrite <- !opt_hd_skipn in Hs. apply (extract_err e (mkCtx tw_id accounts)) in Hs; [|intros i [X|X]; exact (opt_hd_In _ _ _ X)].
  destruct accounts as [|i1 [|i2 [|i3 [|i4 [|i5 [|i6 [|i7 rest]]]]]]]; try discriminate. cbn in Hk. injection Hk as K1 K2 K3 K4 K5 K6 K7 _.
  unfold process_sync_metadata_to_spl_token. cbn [c_infos]. cbv zeta. rewrite K1, K2, K3, K4, K5, Ho, !pk_eqb_refl. cbn [guard bind].
  unfold get_wrapped_mint_address_with_seed, get_wrapped_mint_address_with_seed_for_program. rewrite (findable_get _ _ _ D1). cbn [bind fst].
  change (pda e (wrapped_mint_seeds u spl_token_id) tw_id) with (wrapped_mint_of e u spl_token_id). rewrite <- Ew, pk_eqb_refl. cbn [guard bind].
  rewrite <- Ew in D2.
  unfold get_wrapped_mint_authority_with_seed, get_wrapped_mint_authority_with_seed_for_program. rewrite (findable_get _ _ _ D2). cbn [bind fst].
  change (pda e (wrapped_mint_authority_seeds w) tw_id) with (authority_of e w). rewrite <- Ea, pk_eqb_refl. cbn [guard bind].
  unfold metaplex_find_pda. rewrite (findable_get _ _ _ D3). cbn [bind fst].
  change (pda e (metaplex_seeds w) mpl_id) with (metaplex_of e w). rewrite <- Emd, pk_eqb_refl. cbn [guard bind].
  replace (opt_hd (tl rest)) with (opt_hd (skipn 8 (i1 :: i2 :: i3 :: i4 :: i5 :: i6 :: i7 :: rest))) by (destruct rest; reflexivity).
  cbn [skipn] in Hs |- *. rewrite Hs. reflexivity.
Qed.

(** ** SyncMetadataToSplToken *)
Lemma nuls_repeat n : nuls n = string_of_list_ascii (repeat zero n).
Proof. induction n as [|n IH]; cbn; [reflexivity|]. rewrite IH. reflexivity. Qed.
Lemma pad_padded n s : padded n s (pad n s).
Proof. exists (n - String.length s)%nat. split; [|reflexivity]. unfold pad. rewrite nuls_repeat. reflexivity. Qed.
Lemma apply_shows d x : shows (mpl_apply d x) d.
Proof. unfold shows, mpl_apply. cbn [mx_name mx_symbol mx_uri mx_sfbp mx_creators mx_collection mx_uses]. repeat split; try apply pad_padded. Qed.
Lemma apply_frame d x : same_metaplex_frame x (mpl_apply d x).
Proof. unfold same_metaplex_frame, mpl_apply. cbn. repeat split. Qed.
Lemma converted_unverified e t d : token_2022_metadata_to_metaplex e t = Ok d ->
  forall cs c, d2_creators d = Some cs -> In c cs -> cr_verified c = false.
Proof.
  unfold token_2022_metadata_to_metaplex. intro H. apply bind_ok in H. destruct H as ([[[cr f] co] us] & Hf & H). injection H as <-.
  apply convert_fields_ok in Hf. cbv beta iota in Hf. destruct Hf as (I1 & _). cbn. intros cs c -> Hc.
  destruct (last_value "creators" (tm_additional t)) as [v|]; [|discriminate]. destruct I1 as (x & _ & E). injection E as ->.
  apply in_map_iff in Hc. destruct Hc as (y & <- & _). reflexivity.
Qed.
Lemma collection_eqb_eq a b : collection_eqb a b = true <-> a = b.
Proof.
  destruct a as [[v k]|], b as [[v' k']|]; cbn; split; try congruence.
  - intro H. apply andb_true_iff in H. destruct H as [A B]. apply Bool.eqb_prop in A. apply pk_eqb_eq in B. congruence.
  - intro H. injection H as -> ->. rewrite Bool.eqb_reflx, pk_eqb_refl. reflexivity.
Qed.
Lemma mpl_data_ok_accepts e t old d : token_2022_metadata_to_metaplex e t = Ok d -> mpl_data_ok e old d = true <-> metaplex_accepts e old d.
Proof.
  intro C. unfold mpl_data_ok, metaplex_accepts. rewrite !andb_true_iff, orb_true_iff, negb_true_iff, collection_eqb_eq.
  assert (forallb (fun c => negb (cr_verified c)) match d2_creators d with Some c => c | None => [] end = true) as F.
  { apply forallb_forall. intros c Hc. destruct (d2_creators d) as [cs|] eqn:E; [|destruct Hc]. rewrite (converted_unverified _ _ _ C cs c E Hc). reflexivity. }
  rewrite F. unfold verified_collection. destruct (d2_collection d) as [c|] eqn:Ec.
  - split.
    + intros [[A _] [B|B]]; (split; [exact A|]); intros c' Hc; injection Hc as <-; [congruence|auto].
    + intros [A B]. split; [auto|]. destruct (co_verified c) eqn:V; [right; auto|left; reflexivity].
  - split; [intros [[A _] _]; split; [exact A|discriminate]|intros [A _]; auto].
Qed.

Lemma sync_spl_l e accounts l l' md a w u x sy rn :
  keys_are accounts [md; a; w; u; x; sy; rn] -> succeeds e accounts SyncMetadataToSplToken l l' ->
  (x = mpl_id /\ w = wrapped_mint_of e u spl_token_id /\ a = authority_of e w /\ md = metaplex_of e w /\ a_owner (l w) = spl_token_id) /\
  writable accounts md /\
  exists src d, authentic_metadata e l u src /\ converted e src d /\
    ((no_data l md /\ a_owner (l md) = system_id /\ e_mpl_cost e <= lamports l a /\
      exists m x', mint_data l w m /\ m_auth m = Some a /\ metaplex_account l' md x' /\ shows x' d /\ no_verified_creator x' /\
        mx_key x' = 4 /\ mx_update_authority x' = a /\ mx_mint x' = w /\ mx_is_mutable x' = true /\ mx_primary_sale x' = false /\
        lamports l' md = lamports l md + e_mpl_cost e /\
        l' a = with_lamports (lamports l a - e_mpl_cost e) (l a) /\
        forall k, k <> md -> k <> a -> l' k = l k) \/
     (has_data l md /\ exists old x', metaplex_account l md old /\ mx_update_authority old = a /\ mx_is_mutable old = true /\
        metaplex_account l' md x' /\ shows x' d /\ no_verified_creator x' /\ same_metaplex_frame old x' /\
        lamports l' md = lamports l md /\ forall k, k <> md -> l' k = l k)).
Proof.
  intros [more Hk] H. unfold succeeds in H. rewrite sync_spl_outcome in H.
  destruct (process_sync_spl_inv _ (mkCtx tw_id accounts) _ _ _ _ _ _ _ _ _ more Hk eq_refl H) as (Ex & Ho & Ew & Ea & Emd & Wr & um & d & Hum & Hc & Hcase).
  split; [auto|]. split; [apply writable_is_wr; exact Wr|]. exists um, d. split; [eapply extract_authentic; exact Hum|]. split; [apply convert_ok_l; exact Hc|].
  assert (Hv : forall y, mx_creators y = d2_creators d -> no_verified_creator y).
  { intros y E cs c Hcs. rewrite E in Hcs. eapply converted_unverified; eassumption. }
  destruct Hcase as [(Hem & Hos & _ & Oa & Hcost & _ & m & Hm & Hau & Hl)|(Hne & Hom & old & Hd & Hua & Hmu & _ & Hl)].
  - left. apply N.eqb_eq in Hem. apply pod_unpack_mint_inv in Hm.
    assert (Nam : a <> md) by (rewrite Ea, Emd; unfold authority_of, authority_for, metaplex_of, pda; intro X; inversion X).
    split; [exact Hem|]. split; [exact Hos|]. split; [exact Hcost|].
    exists m. eexists. split; [exact Hm|]. split; [exact Hau|].
    assert (L1 : l' md = mkAcc (a_lamports (l md) + e_mpl_cost e) (DMpl (mpl_apply d (mkMpl 4 a w EmptyString EmptyString EmptyString 0 None false true (e_mpl_nonce e) (Some (if m_decimals m =? 0 then 1 else 2)) None None None None))) mpl_id).
    { rewrite Hl. cbv zeta. rewrite upd_same, upd_other by exact Nam. reflexivity. }
    split; [unfold metaplex_account; rewrite L1; split; reflexivity|]. split; [apply apply_shows|]. split; [apply Hv; reflexivity|].
    do 5 (split; [reflexivity|]). split; [unfold lamports; rewrite L1; reflexivity|]. rewrite Hl. cbv zeta. split.
    + rewrite upd_other by congruence. apply upd_same.
    + intros k K1 K2. rewrite !upd_other by congruence. reflexivity.
  - right. apply N.eqb_neq in Hne. split; [exact Hne|]. exists old. eexists. split; [split; assumption|]. split; [exact Hua|]. split; [exact Hmu|].
    assert (L1 : l' md = with_data (DMpl (mpl_apply d old)) (l md)) by (rewrite Hl; apply upd_same).
    split; [unfold metaplex_account; rewrite L1; split; [exact Hom|reflexivity]|]. split; [apply apply_shows|]. split; [apply Hv; reflexivity|].
    split; [apply apply_frame|]. split; [unfold lamports; rewrite L1; reflexivity|]. rewrite Hl. intros k K. apply upd_other. congruence.
Qed.
