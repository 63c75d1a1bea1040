(** * BuildProofs.v — lemmas: an instruction only needs the privileges its builder grants. *)
From Verif Require Import Base Codec State Pda TokenProg Cpi Meta Processor Builders Tac CodecProofs PdaProofs TokProofs FrameProofs ProcProofs
  Spec SpecLemmas CreateProofs CreateSpec.

(** ** "Succeeds whenever the other does, with the same result" *)
Definition le {A} (x y : res A) : Prop := forall v, x = Ok v -> y = Ok v.
Lemma le_refl {A} (x : res A) : le x x.
Proof. intros v H; exact H. Qed.
Lemma le_bind {A B} (x y : res A) (f g : A -> res B) : le x y -> (forall a, x = Ok a -> le (f a) (g a)) -> le (bind x f) (bind y g).
Proof. intros H K v E. destruct x as [a|]; [|discriminate]. cbn in E. rewrite (H a eq_refl). cbn. exact (K a eq_refl v E). Qed.
Lemma le_bind_same {A B} (x : res A) (f g : A -> res B) : (forall a, x = Ok a -> le (f a) (g a)) -> le (bind x f) (bind x g).
Proof. apply le_bind, le_refl. Qed.

(** ** Contexts *)
Definition keys_eq (c c' : ctx) : Prop := c_prog c' = c_prog c /\ map i_key (c_infos c') = map i_key (c_infos c).
Lemma has_key_map ms k : has_key ms k = pk_mem k (map i_key ms).
Proof.
  unfold has_key, pk_mem. induction ms as [|m r IH]; [reflexivity|]. cbn. rewrite IH. f_equal. 
  destruct (pk_eqb (i_key m) k) eqn:E1, (pk_eqb k (i_key m)) eqn:E2; try reflexivity;
    repeat match goal with H : pk_eqb _ _ = true |- _ => apply pk_eqb_eq in H | H : pk_eqb _ _ = false |- _ => apply pk_eqb_neq in H end; congruence.
Qed.
Lemma has_key_eq c c' k : keys_eq c c' -> has_key (c_infos c') k = has_key (c_infos c) k.
Proof. intros [_ E]. rewrite !has_key_map, E. reflexivity. Qed.

Lemma forallb_same {A} (f g : A -> bool) l : (forall x, f x = g x) -> forallb f l = forallb g l.
Proof. intro H. induction l as [|x r IH]; [reflexivity|]. cbn. rewrite H, IH. reflexivity. Qed.
Lemma le_invoke_signed e c c' b ix passed seeds l :
  keys_eq c c' ->
  (forall m, In m (ix_metas ix) -> i_writable m = true -> is_wr (c_infos c') (i_key m) = true) ->
  (forall m pdas, In m (ix_metas ix) -> i_signer m = true -> map_res (fun s => create_program_address e s (c_prog c)) seeds = Ok pdas ->
     is_sig (c_infos c) (i_key m) = true \/ In (i_key m) pdas -> is_sig (c_infos c') (i_key m) = true \/ In (i_key m) pdas) ->
  le (invoke_signed e c b ix passed seeds l) (invoke_signed e c' b ix passed seeds l).
Proof.
  intros K W S. unfold invoke_signed. apply le_bind_same. intros _ _. destruct K as [Kp Km]. rewrite Kp.
  apply le_bind_same. intros pdas Hp. rewrite (has_key_eq c c' (ix_prog ix)) by (split; assumption).
  apply le_bind_same. intros _ _.
  apply le_bind. { intros v H. rewrite <- H. f_equal. apply forallb_same. intros m. rewrite (has_key_eq c c') by (split; assumption). reflexivity. }
  intros _ _. apply le_bind. { intros v H. destruct v. unfold guard.
    assert (X : forallb (fun m => negb (i_writable m) || is_wr (c_infos c') (i_key m)) (ix_metas ix) = true).
    { apply forallb_forall. intros m Hm. destruct (i_writable m) eqn:E; [|reflexivity]. cbn. exact (W m Hm E). }
    rewrite X. reflexivity. }
  intros _ _. apply le_bind. { intros v H. destruct v. unfold guard in *.
    destruct (forallb (fun m => negb (i_signer m) || is_sig (c_infos c) (i_key m) || pk_mem (i_key m) pdas) (ix_metas ix)) eqn:F; [|discriminate].
    assert (X : forallb (fun m => negb (i_signer m) || is_sig (c_infos c') (i_key m) || pk_mem (i_key m) pdas) (ix_metas ix) = true).
    { apply forallb_forall. intros m Hm. rewrite forallb_forall in F. specialize (F m Hm). destruct (i_signer m) eqn:E; [|reflexivity]. cbn in F. cbn.
      apply orb_true_iff in F. assert (Q : is_sig (c_infos c') (i_key m) = true \/ In (i_key m) pdas).
      { apply (S m pdas Hm E Hp). destruct F as [F|F]; [left; exact F|right; apply pk_mem_In; exact F]. }
      apply orb_true_iff. destruct Q as [Q|Q]; [left; exact Q|right; apply pk_mem_In; exact Q]. }
    rewrite X. reflexivity. }
  intros _ _. apply le_refl.
Qed.
(** The signers of the call are the PDA of the given seeds. *)
Lemma le_invoke_pda e c c' b ix passed s l :
  keys_eq c c' ->
  (forall m, In m (ix_metas ix) -> i_writable m = true -> is_wr (c_infos c') (i_key m) = true) ->
  (forall m, In m (ix_metas ix) -> i_signer m = true -> create_program_address e s (c_prog c) = Ok (i_key m)) ->
  le (invoke_signed e c b ix passed [s] l) (invoke_signed e c' b ix passed [s] l).
Proof.
  intros K W S. apply le_invoke_signed; [exact K|exact W|]. intros m pdas Hm E Hp _. right. pose proof (S m Hm E) as Hc.
  cbn in Hp. rewrite Hc in Hp. cbn in Hp. inversion Hp; subst. left; reflexivity.
Qed.
Lemma le_invoke_none e c c' b ix passed l :
  keys_eq c c' ->
  (forall m, In m (ix_metas ix) -> i_writable m = true -> is_wr (c_infos c') (i_key m) = true) ->
  (forall m, In m (ix_metas ix) -> i_signer m = true -> is_sig (c_infos c) (i_key m) = true -> is_sig (c_infos c') (i_key m) = true) ->
  le (invoke e c b ix passed l) (invoke e c' b ix passed l).
Proof.
  intros K W S. unfold invoke. apply le_invoke_signed; [exact K|exact W|]. intros m pdas Hm E Hp [H|H]; [left; exact (S m Hm E H)|].
  cbn in Hp. inversion Hp; subst. destruct H.
Qed.
Lemma le_write_key c c' k v l : keys_eq c c' -> is_wr (c_infos c') k = true -> le (write_key c k v l) (write_key c' k v l).
Proof.
  intros [Kp _] W. unfold write_key. apply le_bind_same. intros _ _. apply le_bind.
  { intros [] _. rewrite W. reflexivity. }
  intros _ _. rewrite Kp. apply le_refl.
Qed.
Lemma keys_wr_list accounts ks : Forall (fun k => writable accounts k) ks -> forall k, In k ks -> is_wr accounts k = true.
Proof. intros H k Hk. apply writable_is_wr. rewrite Forall_forall in H. exact (H k Hk). Qed.

(** ** CreateMint *)
Lemma bind_ok {A B} (x : res A) (f : A -> res B) v : bind x f = Ok v -> exists a, x = Ok a /\ f a = Ok v.
Proof. destruct x; [eauto|discriminate]. Qed.
Lemma le_init_ext e c c' p w x l : keys_eq c c' -> is_wr (c_infos c') w = true ->
  le (invoke_init_ext e c p w x l) (invoke_init_ext e c' p w x l).
Proof.
  intros K W. unfold invoke_init_ext, ix_init_ext. destruct (check_t22_program_account p); [|intros v H; discriminate]. cbn [bind].
  apply le_invoke_none; [exact K| |]; cbn [ix_metas In]; intros m [<-|[]] E; cbn [i_key meta_w]; [exact W|discriminate].
Qed.
Lemma le_create e c c' w b u s p more idem l :
  c_prog c = tw_id -> keys_eq c c' -> map i_key (c_infos c) = w :: b :: u :: s :: p :: more ->
  is_wr (c_infos c') w = true -> is_wr (c_infos c') b = true ->
  le (process_create_mint default_customizer e c idem l) (process_create_mint default_customizer e c' idem l).
Proof.
  intros Kt K Hk Ww Wb. pose proof K as [Kp Km]. rewrite Hk in Km. unfold process_create_mint. rewrite Kp.
  destruct (c_infos c) as [|i0 [|i1 [|i2 [|i3 [|i4 r]]]]] eqn:Hc; try discriminate.
  destruct (c_infos c') as [|j0 [|j1 [|j2 [|j3 [|j4 r']]]]] eqn:Hc'; try discriminate.
  rewrite <- Hc' in Ww, Wb.
  cbn [map] in Hk, Km. injection Hk as K0 K1 K2 K3 K4 Kr. injection Km as J0 J1 J2 J3 J4 Jr.
  cbv zeta. rewrite K0, K1, K2, K4, J0, J1, J2, J4.
  apply le_bind_same. intros wm Hw. apply le_bind_same. intros bm Hb.
  apply le_bind_same. intros ?v G1. apply guard_ok in G1. apply pk_eqb_eq in G1. apply le_bind_same. intros ?v G2. apply guard_ok in G2. apply pk_eqb_eq in G2.
  apply le_bind_same. intros _ _. destruct (_ || _); [apply le_refl|].
  apply le_bind_same. intros space _. apply le_bind_same. intros _ _.
  assert (CW : create_program_address e (wrapped_mint_signer_seeds u p (snd wm)) (c_prog c) = Ok (fst wm)).
  { rewrite Kt. destruct wm as [k n]. apply find_pda_create in Hw. exact Hw. }
  assert (CB : create_program_address e (backpointer_signer_seeds w (snd bm)) (c_prog c) = Ok (fst bm)).
  { rewrite Kt. destruct bm as [k n]. apply find_pda_create in Hb. exact Hb. }
  apply le_bind. { apply le_invoke_pda; [exact K| |]; cbn [ix_metas ix_allocate In]; intros m [<-|[]] E; cbn [i_key meta_w]; [rewrite <- G1; exact Ww|exact CW]. }
  intros l1 _. apply le_bind. { apply le_invoke_pda; [exact K| |]; cbn [ix_metas ix_assign In]; intros m [<-|[]] E; cbn [i_key meta_w]; [rewrite <- G1; exact Ww|exact CW]. }
  intros l2 _. apply le_bind.
  { destruct (pk_eqb p t22_id); [|apply le_refl]. cbn [default_customizer cu_init]. unfold default_init. apply le_bind; [apply le_init_ext; assumption|].
    intros l3 _. apply le_bind_same. intros auth _. apply le_init_ext; assumption. }
  intros l3 _. apply le_bind_same. intros fd _. apply le_bind_same. intros auth _. apply le_bind_same. intros ix Hix.
  apply le_bind. { unfold ix_initialize_mint2 in Hix. apply bind_ok in Hix. destruct Hix as (_ & _ & Hix). inversion Hix; subst ix.
    apply le_invoke_none; [exact K| |]; cbn [ix_metas In]; intros m [<-|[]] E; cbn [i_key meta_w]; [exact Ww|discriminate]. }
  intros l4 _. apply le_bind_same. intros _ _.
  apply le_bind. { apply le_invoke_pda; [exact K| |]; cbn [ix_metas ix_allocate In]; intros m [<-|[]] E; cbn [i_key meta_w]; [rewrite <- G2; exact Wb|exact CB]. }
  intros l5 _. apply le_bind. { apply le_invoke_pda; [exact K| |]; cbn [ix_metas ix_assign In]; intros m [<-|[]] E; cbn [i_key meta_w]; [rewrite <- G2; exact Wb|exact CB]. }
  intros l6 _. apply le_write_key; assumption.
Qed.

(** ** CloseStuckEscrow *)
Lemma le_close e c c' esc d u w a p more l :
  c_prog c = tw_id -> keys_eq c c' -> map i_key (c_infos c) = esc :: d :: u :: w :: a :: p :: more ->
  is_wr (c_infos c') esc = true -> is_wr (c_infos c') d = true ->
  le (process_close_stuck_escrow e c l) (process_close_stuck_escrow e c' l).
Proof.
  intros Kt K Hk We Wd. pose proof K as [Kp Km]. rewrite Hk in Km. unfold process_close_stuck_escrow.
  destruct (c_infos c) as [|i0 [|i1 [|i2 [|i3 [|i4 [|i5 r]]]]]] eqn:Hc; try discriminate.
  destruct (c_infos c') as [|j0 [|j1 [|j2 [|j3 [|j4 [|j5 r']]]]]] eqn:Hc'; try discriminate.
  rewrite <- Hc' in We, Wd.
  cbn [map] in Hk, Km. injection Hk as K0 K1 K2 K3 K4 K5 Kr. injection Km as J0 J1 J2 J3 J4 J5 Jr.
  cbv zeta. rewrite K0, K1, K2, K3, K4, J0, J1, J2, J3, J4.
  apply le_bind_same. intros _ _. apply le_bind_same. intros w' _. apply le_bind_same. intros _ _. apply le_bind_same. intros am Ha.
  apply le_bind_same. intros ?v G. apply guard_ok in G. apply pk_eqb_eq in G.
  apply le_bind_same. intros x _. apply le_bind_same. intros _ _. apply le_bind_same. intros et _. do 3 (apply le_bind_same; intros _ _).
  apply le_bind_same. intros m _. apply le_bind_same. intros _ _. apply le_bind_same. intros ix Hix.
  assert (CA : create_program_address e (wrapped_mint_authority_signer_seeds w (snd am)) (c_prog c) = Ok a).
  { rewrite Kt, G. destruct am as [k n]. apply find_pda_create in Ha. exact Ha. }
  unfold ix_close_account in Hix. apply bind_ok in Hix. destruct Hix as (? & _ & Hix). inversion Hix; subst ix.
  apply le_invoke_pda; [exact K| |]; cbn [ix_metas In is_nil app map]; intros y [<-|[<-|[<-|[]]]] E; cbn [i_key i_writable i_signer meta_w meta_r] in *; try discriminate; assumption.
Qed.

(** ** Metadata *)
Lemma le_emit e c c' l op md : keys_eq c c' -> le (cpi_emit_and_decode e c l op md) (cpi_emit_and_decode e c' l op md).
Proof. intro K. unfold cpi_emit_and_decode. rewrite !(has_key_eq c c') by exact K. apply le_refl. Qed.
Lemma le_extract e c c' l u src op src' op' : keys_eq c c' -> option_map i_key src' = option_map i_key src -> option_map i_key op' = option_map i_key op ->
  le (extract_token_metadata e c l u src op) (extract_token_metadata e c' l u src' op').
Proof.
  intros K Es Eo.
  assert (M : le (read_metaplex_for_mint e l u src) (read_metaplex_for_mint e l u src')).
  { unfold read_metaplex_for_mint. destruct src as [i|], src' as [j|]; try discriminate; try apply le_refl.
    cbn [option_map] in Es. injection Es as Es. cbn [of_option bind]. rewrite Es. apply le_refl. }
  unfold extract_token_metadata. destruct (pk_eqb (a_owner (l u)) t22_id).
  - unfold resolve_token_2022_source_metadata. apply le_bind_same. intros m _. destruct (ext_pointer m) as [[x addr]|]; [|exact M].
    apply le_bind_same. intros a _. destruct (pk_eqb a u); [apply le_refl|].
    destruct src as [i|], src' as [j|]; try discriminate; try apply le_refl.
    cbn [option_map] in Es. injection Es as Es. cbn [of_option bind]. rewrite Es. apply le_bind_same. intros _ _.
    destruct (pk_eqb (a_owner (l (i_key i))) t22_id); [apply le_refl|]. destruct (pk_eqb (a_owner (l (i_key i))) mpl_id); [apply le_refl|].
    destruct op as [p|], op' as [p'|]; try discriminate; try apply le_refl. cbn [option_map] in Eo. injection Eo as Eo. cbn [of_option bind]. rewrite Eo.
    apply le_bind_same. intros _ _. apply le_emit; exact K.
  - destruct (pk_eqb (a_owner (l u)) spl_token_id); [exact M|apply le_refl].
Qed.
Lemma opt_hd_keys r r' : map i_key r' = map i_key r -> option_map i_key (opt_hd r') = option_map i_key (opt_hd r) /\
  option_map i_key (opt_hd (tl r')) = option_map i_key (opt_hd (tl r)).
Proof.
  intro H. destruct r as [|x r], r' as [|x' r']; try discriminate; [split; reflexivity|]. cbn in H. injection H as H1 H2. cbn. rewrite H1. split; [reflexivity|].
  destruct r as [|y r], r' as [|y' r']; try discriminate; [reflexivity|]. cbn in H2. injection H2 as H2 _. cbn. rewrite H2. reflexivity.
Qed.
Lemma le_update_field e c c' p w a f v s l : keys_eq c c' -> is_wr (c_infos c') w = true -> create_program_address e s (c_prog c) = Ok a ->
  le (cpi_update_field e c p w a f v s l) (cpi_update_field e c' p w a f v s l).
Proof.
  intros K W C. unfold cpi_update_field. apply le_invoke_pda; [exact K| |]; cbn [ix_metas ix_md_update_field In]; intros y [<-|[<-|[]]] E;
    cbn [i_key i_writable i_signer meta_w meta_r] in *; try discriminate; assumption.
Qed.
Lemma le_update_fields e c c' p w a fs x y s : keys_eq c c' -> is_wr (c_infos c') w = true -> create_program_address e s (c_prog c) = Ok a ->
  forall l, le (update_fields_if_changed e c p w a fs x y s l) (update_fields_if_changed e c' p w a fs x y s l).
Proof.
  intros K W C. induction fs as [|f r IH]; intro l; [apply le_refl|]. cbn [update_fields_if_changed]. apply le_bind; [|intros l1 _; apply IH].
  destruct (String.eqb _ _); [apply le_refl|]. apply le_update_field; assumption.
Qed.
Lemma le_sync_additional e c c' p w a s : keys_eq c c' -> is_wr (c_infos c') w = true -> create_program_address e s (c_prog c) = Ok a ->
  forall kvs hm l, le (sync_additional e c p w a s kvs hm l) (sync_additional e c' p w a s kvs hm l).
Proof.
  intros K W C. induction kvs as [|[k v] r IH]; intros hm l; [apply le_refl|]. cbn [sync_additional]. apply le_bind; [|intros l1 _; apply IH].
  destruct (opt_string_eqb _ _); [apply le_refl|]. apply le_update_field; assumption.
Qed.
Lemma le_remove_stale e c c' p w a s : keys_eq c c' -> is_wr (c_infos c') w = true -> create_program_address e s (c_prog c) = Ok a ->
  forall ks l, le (remove_stale e c p w a s ks l) (remove_stale e c' p w a s ks l).
Proof.
  intros K W C. induction ks as [|k r IH]; intro l; [apply le_refl|]. cbn [remove_stale]. apply le_bind; [|intros l1 _; apply IH].
  apply le_invoke_pda; [exact K| |]; cbn [ix_metas ix_md_remove_key In]; intros y [<-|[<-|[]]] E;
    cbn [i_key i_writable i_signer meta_w meta_r] in *; try discriminate; assumption.
Qed.
Lemma le_add_all e c c' p w a s : keys_eq c c' -> is_wr (c_infos c') w = true -> create_program_address e s (c_prog c) = Ok a ->
  forall kvs l, le (add_all e c p w a s kvs l) (add_all e c' p w a s kvs l).
Proof.
  intros K W C. induction kvs as [|[k v] r IH]; intro l; [apply le_refl|]. cbn [add_all]. apply le_bind; [|intros l1 _; apply IH].
  apply le_update_field; assumption.
Qed.
Lemma le_sync_t22 e c c' w a u p more l :
  c_prog c = tw_id -> keys_eq c c' -> map i_key (c_infos c) = w :: a :: u :: p :: more -> is_wr (c_infos c') w = true ->
  le (process_sync_metadata_to_token_2022 e c l) (process_sync_metadata_to_token_2022 e c' l).
Proof.
  intros Kt K Hk Ww. pose proof K as [Kp Km]. rewrite Hk in Km. unfold process_sync_metadata_to_token_2022.
  destruct (c_infos c) as [|i0 [|i1 [|i2 [|i3 r]]]] eqn:Hc; try discriminate.
  destruct (c_infos c') as [|j0 [|j1 [|j2 [|j3 r']]]] eqn:Hc'; try discriminate.
  rewrite <- Hc' in Ww.
  cbn [map] in Hk, Km. injection Hk as K0 K1 K2 K3 Kr. injection Km as J0 J1 J2 J3 Jr.
  cbv zeta. rewrite K0, K1, K2, K3, J0, J1, J2, J3.
  destruct (opt_hd_keys r r') as [O1 O2]; [congruence|].
  apply le_bind_same. intros _ _. apply le_bind_same. intros _ _. apply le_bind_same. intros wm _. apply le_bind_same. intros _ _.
  apply le_bind_same. intros am Ha. apply le_bind_same. intros ?v G. apply guard_ok in G. apply pk_eqb_eq in G.
  assert (CA : create_program_address e (wrapped_mint_authority_signer_seeds w (snd am)) (c_prog c) = Ok a).
  { rewrite Kt, G. destruct am as [k n]. apply find_pda_create in Ha. exact Ha. }
  apply le_bind; [apply le_extract; assumption|]. intros um _. apply le_bind_same. intros m _. destruct (ext_metadata m) as [t|].
  - apply le_bind; [apply le_update_fields; assumption|]. intros l1 _. apply le_bind; [apply le_sync_additional; assumption|]. intros x _.
    apply le_remove_stale; assumption.
  - apply le_bind; [|intros l1 _; apply le_add_all; assumption].
    apply le_invoke_pda; [exact K| |]; cbn [ix_metas ix_md_initialize In]; intros y [<-|[<-|[<-|[<-|[]]]]] E;
    cbn [i_key i_writable i_signer meta_w meta_r] in *; try discriminate; assumption.
Qed.
Lemma le_sync_spl e c c' md a w u x s rn more l :
  c_prog c = tw_id -> keys_eq c c' -> map i_key (c_infos c) = md :: a :: w :: u :: x :: s :: rn :: more ->
  is_wr (c_infos c') md = true -> is_wr (c_infos c') a = true ->
  le (process_sync_metadata_to_spl_token e c l) (process_sync_metadata_to_spl_token e c' l).
Proof.
  intros Kt K Hk Wm Wa. pose proof K as [Kp Km]. rewrite Hk in Km. unfold process_sync_metadata_to_spl_token.
  destruct (c_infos c) as [|i0 [|i1 [|i2 [|i3 [|i4 [|i5 [|i6 r]]]]]]] eqn:Hc; try discriminate.
  destruct (c_infos c') as [|j0 [|j1 [|j2 [|j3 [|j4 [|j5 [|j6 r']]]]]]] eqn:Hc'; try discriminate.
  rewrite <- Hc' in Wm, Wa.
  cbn [map] in Hk, Km. injection Hk as K0 K1 K2 K3 K4 K5 K6 Kr. injection Km as J0 J1 J2 J3 J4 J5 J6 Jr.
  cbv zeta. rewrite K0, K1, K2, K3, K4, K5, K6, J0, J1, J2, J3, J4, J5, J6.
  destruct (opt_hd_keys r r') as [O1 O2]; [congruence|].
  apply le_bind_same. intros _ _. apply le_bind_same. intros wm _. apply le_bind_same. intros _ _.
  apply le_bind_same. intros am Ha. apply le_bind_same. intros ?v G. apply guard_ok in G. apply pk_eqb_eq in G.
  apply le_bind_same. intros mp _. apply le_bind_same. intros _ _. apply le_bind_same. intros _ _.
  assert (CA : create_program_address e (wrapped_mint_authority_signer_seeds w (snd am)) (c_prog c) = Ok a).
  { rewrite Kt, G. destruct am as [k n]. apply find_pda_create in Ha. exact Ha. }
  apply le_bind; [apply le_extract; assumption|]. intros um _. apply le_bind_same. intros d _. destruct (data_is_empty _).
  - apply le_invoke_pda; [exact K| |]; cbn [ix_metas ix_mpl_create In]; intros y Hy E; repeat (destruct Hy as [<-|Hy]; [cbn [i_key i_writable i_signer meta_w meta_r] in *; try discriminate; assumption|]); destruct Hy.
  - apply le_invoke_pda; [exact K| |]; cbn [ix_metas ix_mpl_update In]; intros y [<-|[<-|[]]] E;
    cbn [i_key i_writable i_signer meta_w meta_r] in *; try discriminate; assumption.
Qed.

(** ** SetCanonicalPointer *)
Lemma le_pointer e c c' a p u s more n l :
  c_prog c = tw_id -> keys_eq c c' -> map i_key (c_infos c) = a :: p :: u :: s :: more ->
  is_wr (c_infos c') p = true -> (forall i, nth_error (c_infos c') 0 = Some i -> i_signer i = true) ->
  le (process_set_canonical_pointer e c n l) (process_set_canonical_pointer e c' n l).
Proof.
  intros Kt K Hk Wp Sg. pose proof K as [Kp Km]. rewrite Hk in Km. unfold process_set_canonical_pointer. rewrite Kp.
  destruct (c_infos c) as [|i0 [|i1 [|i2 [|i3 r]]]] eqn:Hc; try discriminate.
  destruct (c_infos c') as [|j0 [|j1 [|j2 [|j3 r']]]] eqn:Hc'; try discriminate.
  assert (S0 : i_signer j0 = true) by (apply Sg; reflexivity). rewrite <- Hc' in Wp.
  cbn [map] in Hk, Km. injection Hk as K0 K1 K2 K3 Kr. injection Km as J0 J1 J2 J3 Jr.
  cbv zeta. rewrite K0, K1, K2, J0, J1, J2. rewrite S0. apply le_bind; [intros [] _; reflexivity|]. intros _ _.
  apply le_bind_same. intros _ _. apply le_bind_same. intros m _. apply le_bind_same. intros ma _. apply le_bind_same. intros _ _.
  apply le_bind_same. intros pp Hp. apply le_bind_same. intros ?v G. apply guard_ok in G. apply pk_eqb_eq in G.
  assert (CA : create_program_address e (canonical_pointer_signer_seeds u (snd pp)) (c_prog c) = Ok p).
  { rewrite Kt, G. destruct pp as [k z]. apply find_pda_create in Hp. exact Hp. }
  apply le_bind; [|intros l2 _; apply le_write_key; assumption].
  destruct (data_is_empty _); [|apply le_refl]. apply le_bind_same. intros _ _.
  apply le_bind; [|intros l1 _]; (apply le_invoke_pda; [exact K| |]; cbn [ix_metas ix_allocate ix_assign In]; intros y [<-|[]] E; cbn [i_key meta_w]; assumption).
Qed.

(** ** Wrap and Unwrap *)
(** The extra accounts the onchain transfer helpers find do not depend on the privileges in the
    account list, and need no privilege the second list does not grant. *)
Definition extras_agree (e : env) (c c' : ctx) (n : nat) : Prop :=
  forall l x, e_extra e l (c_infos c) (skipn n (c_infos c)) = Ok x ->
    e_extra e l (c_infos c') (skipn n (c_infos c')) = Ok x /\ (forall m, In m x -> i_writable m = true -> is_wr (c_infos c') (i_key m) = true).
Lemma le_tail e c c' b p src mnt dst auth x t seeds l :
  keys_eq c c' -> (forall k, is_sig (c_infos c) k = true -> is_sig (c_infos c') k = true) ->
  is_wr (c_infos c') src = true -> is_wr (c_infos c') dst = true ->
  (forall m, In m x -> i_writable m = true -> is_wr (c_infos c') (i_key m) = true) ->
  le (invoke_signed e c b (mkIx p (transfer_metas l src mnt dst auth x) t) ([src; mnt; dst; auth] ++ map i_key x) seeds l)
     (invoke_signed e c' b (mkIx p (transfer_metas l src mnt dst auth x) t) ([src; mnt; dst; auth] ++ map i_key x) seeds l).
Proof.
  intros K S Ws Wd Wx. apply le_invoke_signed; [exact K| |].
  - cbn [ix_metas]. intros m Hm E. unfold transfer_metas in Hm. apply in_app_or in Hm. destruct Hm as [Hm|Hm]; [|exact (Wx m Hm E)].
    destruct Hm as [<-|[<-|[<-|[<-|[]]]]]; cbn [i_key i_writable meta_w meta_r] in *; try discriminate; assumption.
  - intros m pdas _ _ _ [H|H]; [left; exact (S _ H)|right; exact H].
Qed.
Lemma le_transfer e c c' n b p src mnt dst auth amount dec seeds l :
  keys_eq c c' -> (forall k, is_sig (c_infos c) k = true -> is_sig (c_infos c') k = true) ->
  is_wr (c_infos c') src = true -> is_wr (c_infos c') dst = true -> extras_agree e c c' n ->
  le (invoke_transfer_checked e c b p src mnt dst auth (skipn n (c_infos c)) amount dec seeds l)
     (invoke_transfer_checked e c' b p src mnt dst auth (skipn n (c_infos c')) amount dec seeds l).
Proof.
  intros K S Ws Wd X. unfold invoke_transfer_checked. apply le_bind_same. intros _ _.
  apply le_bind; [intros x Hx; exact (proj1 (X _ _ Hx))|]. intros x Hx. cbv zeta. apply le_tail; try assumption. exact (proj2 (X _ _ Hx)).
Qed.
Lemma le_transfer_fee e c c' n b p src mnt dst auth amount dec fee seeds l :
  keys_eq c c' -> (forall k, is_sig (c_infos c) k = true -> is_sig (c_infos c') k = true) ->
  is_wr (c_infos c') src = true -> is_wr (c_infos c') dst = true -> extras_agree e c c' n ->
  le (invoke_transfer_checked_with_fee e c b p src mnt dst auth (skipn n (c_infos c)) amount dec fee seeds l)
     (invoke_transfer_checked_with_fee e c' b p src mnt dst auth (skipn n (c_infos c')) amount dec fee seeds l).
Proof.
  intros K S Ws Wd X. unfold invoke_transfer_checked_with_fee. apply le_bind_same. intros _ _.
  apply le_bind; [intros x Hx; exact (proj1 (X _ _ Hx))|]. intros x Hx. cbv zeta. apply le_tail; try assumption. exact (proj2 (X _ _ Hx)).
Qed.
Lemma le_wrap e c c' r w a up wp s u esc ta more amount l :
  keys_eq c c' -> map i_key (c_infos c) = r :: w :: a :: up :: wp :: s :: u :: esc :: ta :: more ->
  is_wr (c_infos c') r = true -> is_wr (c_infos c') w = true -> is_wr (c_infos c') s = true -> is_wr (c_infos c') esc = true ->
  (forall k, is_sig (c_infos c) k = true -> is_sig (c_infos c') k = true) -> extras_agree e c c' 9 ->
  le (process_wrap e c amount l) (process_wrap e c' amount l).
Proof.
  intros K Hk Wr Ww Ws We Sg X. pose proof K as [Kp Km]. rewrite Hk in Km. unfold process_wrap. apply le_bind_same. intros _ _.
  destruct (c_infos c) as [|i0 [|i1 [|i2 [|i3 [|i4 [|i5 [|i6 [|i7 [|i8 q]]]]]]]]] eqn:Hc; try discriminate.
  destruct (c_infos c') as [|j0 [|j1 [|j2 [|j3 [|j4 [|j5 [|j6 [|j7 [|j8 q']]]]]]]]] eqn:Hc'; try discriminate.
  rewrite <- Hc' in Wr, Ww, Ws, We, Sg. rewrite <- Hc in Sg.
  cbn [map] in Hk, Km. injection Hk as K0 K1 K2 K3 K4 K5 K6 K7 K8 Kr. injection Km as J0 J1 J2 J3 J4 J5 J6 J7 J8 Jr.
  assert (Eq : q = skipn 9 (c_infos c)) by (rewrite Hc; reflexivity). assert (Eq' : q' = skipn 9 (c_infos c')) by (rewrite Hc'; reflexivity).
  cbv zeta. rewrite K0, K1, K2, K3, K4, K5, K6, K7, K8, J0, J1, J2, J3, J4, J5, J6, J7, J8, Eq, Eq'.
  apply le_bind_same. intros w' _. apply le_bind_same. intros _ _. apply le_bind_same. intros am _. apply le_bind_same. intros _ _.
  apply le_bind_same. intros x _. apply le_bind_same. intros _ _. apply le_bind_same. intros et _. apply le_bind_same. intros _ _.
  apply le_bind_same. intros um _. apply le_bind_same. intros _ _.
  apply le_bind. { destruct (pk_eqb up t22_id); [apply le_transfer_fee|apply le_transfer]; assumption. }
  intros l1 _. apply le_bind_same. intros ix Hix. unfold ix_mint_to in Hix. apply bind_ok in Hix. destruct Hix as (? & _ & Hix). inversion Hix; subst ix.
  apply le_invoke_signed; [exact K| |].
  - cbn [ix_metas In is_nil app map]; intros y [<-|[<-|[<-|[]]]] E; cbn [i_key i_writable meta_w meta_r] in *; try discriminate; assumption.
  - intros m pdas _ _ _ [H|H]; [left; exact (Sg _ H)|right; exact H].
Qed.
Lemma le_unwrap e c c' esc r a u wp up s w ta more amount l :
  keys_eq c c' -> map i_key (c_infos c) = esc :: r :: a :: u :: wp :: up :: s :: w :: ta :: more ->
  is_wr (c_infos c') r = true -> is_wr (c_infos c') w = true -> is_wr (c_infos c') s = true -> is_wr (c_infos c') esc = true ->
  (forall k, is_sig (c_infos c) k = true -> is_sig (c_infos c') k = true) -> extras_agree e c c' 9 ->
  le (e_multisig e l ta (skipn 9 (c_infos c))) (e_multisig e l ta (skipn 9 (c_infos c'))) ->
  le (process_unwrap e c amount l) (process_unwrap e c' amount l).
Proof.
  intros K Hk Wr Ww Ws We Sg X Ms. pose proof K as [Kp Km]. rewrite Hk in Km. unfold process_unwrap. apply le_bind_same. intros _ _.
  destruct (c_infos c) as [|i0 [|i1 [|i2 [|i3 [|i4 [|i5 [|i6 [|i7 [|i8 q]]]]]]]]] eqn:Hc; try discriminate.
  destruct (c_infos c') as [|j0 [|j1 [|j2 [|j3 [|j4 [|j5 [|j6 [|j7 [|j8 q']]]]]]]]] eqn:Hc'; try discriminate.
  rewrite <- Hc' in Wr, Ww, Ws, We, Sg, Ms. rewrite <- Hc in Sg, Ms.
  cbn [map] in Hk, Km. injection Hk as K0 K1 K2 K3 K4 K5 K6 K7 K8 Kr. injection Km as J0 J1 J2 J3 J4 J5 J6 J7 J8 Jr.
  assert (Eq : q = skipn 9 (c_infos c)) by (rewrite Hc; reflexivity). assert (Eq' : q' = skipn 9 (c_infos c')) by (rewrite Hc'; reflexivity).
  assert (Eql : map i_key q' = map i_key q) by (clear - Kr Jr; congruence).
  assert (Ep : map i_key (j6 :: j7 :: j8 :: q') = map i_key (i6 :: i7 :: i8 :: q)) by (cbn [map]; clear - Eql J6 J7 J8 K6 K7 K8; congruence).
  cbv zeta. rewrite Ep. clear Ep. rewrite K0, K1, K2, K3, K4, K5, K6, K7, K8, J0, J1, J2, J3, J4, J5, J6, J7, J8, Eq, Eq'.
  apply le_bind_same. intros w' _. apply le_bind_same. intros _ _. apply le_bind_same. intros am _. apply le_bind_same. intros _ _.
  apply le_bind_same. intros x _. apply le_bind_same. intros _ _. apply le_bind; [exact Ms|]. intros S _.
  apply le_bind_same. intros ix Hix. unfold ix_burn in Hix. apply bind_ok in Hix. destruct Hix as (? & _ & Hix). inversion Hix; subst ix.
  apply le_bind.
  { apply le_invoke_none; [exact K| |].
    - cbn [ix_metas]. intros m [<-|[<-|[<-|Hm]]] E; cbn [i_key i_writable meta_w meta_r] in *; try discriminate; try assumption.
      apply in_map_iff in Hm. destruct Hm as (k & <- & _). discriminate.
    - intros m _ _ H. exact (Sg _ H). }
  intros l1 _. apply le_bind_same. intros um _. apply le_transfer; assumption.
Qed.
