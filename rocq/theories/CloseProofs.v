(** * CloseProofs.v — CloseStuckEscrow. *)
From Verif Require Import Base Codec State Pda TokenProg Cpi Meta Processor Tac CodecProofs PdaProofs TokProofs FrameProofs ProcProofs Spec SpecLemmas WrapProofs WrapProofs2 CreateProofs CreateProofs2 CreateSpec.

Lemma close_outcome e accounts l : outcome e accounts CloseStuckEscrow l = process_close_stuck_escrow e (mkCtx tw_id accounts) l.
Proof. rewrite outcome_instr by exact I. reflexivity. Qed.

Lemma NoDup_app_intro {A} (x y : list A) : NoDup x -> NoDup y -> (forall a, In a x -> In a y -> False) -> NoDup (x ++ y).
Proof.
  induction x as [|a x IH]; cbn; intros Hx Hy D; [exact Hy|]. inversion Hx; subst. constructor.
  - rewrite in_app_iff. intros [H|H]; [contradiction|]. exact (D a (or_introl eq_refl) H).
  - apply IH; auto. intros b Hb. apply D. auto.
Qed.
Lemma ext_type_mem_In x l : ext_type_mem x l = true <-> In x l.
Proof.
  unfold ext_type_mem. rewrite existsb_exists. split.
  - intros (y & Hy & E). apply acct_ext_type_eqb_eq in E. subst. exact Hy.
  - intro H. exists x. split; [exact H|]. apply acct_ext_type_eqb_eq. reflexivity.
Qed.
Lemma required_kind x y ty : In ty (required_exts_of x) -> In ty (required_exts_of y) -> mint_ext_kind x = mint_ext_kind y.
Proof. destruct x, y; cbn; intuition (subst; try discriminate; auto). Qed.
Lemma required_nodup x : NoDup (required_exts_of x).
Proof.
  destruct x; cbn; repeat constructor; cbn; try tauto. intros [H|[]]; discriminate.
Qed.
Lemma required_init_nodup x : NoDup (map mint_ext_kind x) -> NoDup (required_init_account_exts x).
Proof.
  unfold required_init_account_exts. induction x as [|a x IH]; cbn; [constructor|]. intro H. inversion H as [|? ? Ha Hx]; subst.
  apply NoDup_app_intro; [apply required_nodup|auto|].
  intros ty Ht Hf. apply in_flat_map in Hf. destruct Hf as (y & Hy & Hty).
  apply Ha. rewrite (required_kind a y ty Ht Hty). apply in_map. exact Hy.
Qed.
Lemma required_demands m ty : In ty (required_init_account_exts (m_exts m)) <-> demands m ty.
Proof.
  unfold required_init_account_exts. rewrite in_flat_map. split.
  - intros (x & Hx & Ht). destruct x; cbn in Ht; try contradiction; destruct Ht as [<-|Ht]; try contradiction;
      try (destruct Ht as [<-|[]]); econstructor; eassumption.
  - intros H. destruct H; eexists; split; try eassumption; cbn; auto.
Qed.
Lemma required_all m ty : In ty (required_account_extensions m) <-> demands m ty \/ ty = XtImmutableOwner.
Proof.
  unfold required_account_extensions. destruct (ext_type_mem _ _) eqn:E.
  - apply ext_type_mem_In in E. rewrite <- required_demands. split; [auto|]. intros [H| ->]; auto.
  - rewrite in_app_iff, required_demands. cbn. intuition.
Qed.
Lemma required_all_nodup m : distinct_mint_exts m -> NoDup (required_account_extensions m).
Proof.
  intro H. unfold required_account_extensions. destruct (ext_type_mem _ _) eqn:E; [apply required_init_nodup; exact H|].
  apply NoDup_app_intro; [apply required_init_nodup; exact H|repeat constructor; cbn; tauto|].
  intros ty Ht [<-|[]]. apply ext_type_mem_In in Ht. congruence.
Qed.
Lemma good_state_healthy m t : distinct_mint_exts m -> distinct_acct_exts t ->
  in_good_state (map acct_ext_type_of (t_exts t)) (required_account_extensions m) = true <-> healthy m t.
Proof.
  intros Hm Ht. pose proof (required_all_nodup m Hm) as Hn. unfold in_good_state, distinct_acct_exts, healthy in *.
  rewrite andb_true_iff, Nat.eqb_eq, forallb_forall.
  assert (S : (forall x, In x (required_account_extensions m) -> ext_type_mem x (map acct_ext_type_of (t_exts t)) = true) <->
              incl (required_account_extensions m) (map acct_ext_type_of (t_exts t))).
  { unfold incl. split; intros H x Hx; apply ext_type_mem_In; apply H; exact Hx. }
  rewrite S. split.
  - intros [L I] ty. rewrite <- required_all. split; [|apply I].
    assert (J : incl (map acct_ext_type_of (t_exts t)) (required_account_extensions m)).
    { apply NoDup_length_incl; [exact Hn|rewrite L; auto|exact I]. }
    apply J.
  - intro H. assert (P : Permutation (map acct_ext_type_of (t_exts t)) (required_account_extensions m)).
    { apply NoDup_Permutation; [exact Ht|exact Hn|]. intro x. rewrite required_all. apply H. }
    split; [apply Permutation_length; exact P|]. intros x Hx. apply (Permutation_in _ (Permutation_sym P)). exact Hx.
Qed.

Lemma tok_close_tok_inv prog cpi ms acc dst auth signers l l' t :
  a_data (l acc) = DTok t -> tok_close prog cpi ms acc dst auth signers l = Ok l' ->
  acc <> dst /\ t_state t <> Uninitialized /\ (t_native t = None -> t_amount t = 0) /\
  is_wr ms acc = true /\ is_wr ms dst = true /\ a_owner (l acc) = prog /\
  ((t_owner t = system_id \/ t_owner t = incinerator_id) \/
   signed_for prog l (is_sig ms) (match t_close t with Some c => c | None => t_owner t end)) /\
  l' acc = mkAcc 0 DEmpty system_id /\
  l' dst = mkAcc (a_lamports (l dst) + a_lamports (l acc)) (a_data (l dst)) (a_owner (l dst)) /\
  forall k, k <> acc -> k <> dst -> l' k = l k.
Proof.
  intros D H. unfold tok_close in H. rewrite D in H. inv_ok.
  match goal with X : unpack_tok _ _ = Ok ?y |- _ => apply unpack_tok_inv in X; destruct X as (X1 & X2 & _); injection X1 as <- end.
  match goal with X : move_lamports _ _ _ _ _ _ = Ok _ |- _ => apply move_lamports_inv in X; destruct X as (W1 & W2 & O & _ & ->) end.
  match goal with X : delete_account _ _ _ _ = Ok _ |- _ => apply delete_account_inv in X; destruct X as (_ & _ & ->) end.
  cbn zeta.
  split; [assumption|]. split; [assumption|].
  split. { intro N. match goal with X : match t_native t with _ => _ end = true |- _ => rewrite N in X; apply N.eqb_eq in X; exact X end. }
  split; [assumption|]. split; [assumption|]. split; [assumption|].
  split.
  { match goal with X : (if _ then _ else _) = Ok _ |- _ => destruct (pk_eqb (t_owner t) system_id || pk_eqb (t_owner t) incinerator_id) eqn:F; [|rename X into Y] end.
    - left. apply orb_true_iff in F. rewrite !pk_eqb_eq in F. exact F.
    - right. inv_ok. match goal with X : validate_owner _ _ _ _ _ _ = Ok _ |- _ => apply validate_owner_inv in X; tauto end. }
  split. { rewrite upd_same. f_equal. rewrite upd_other by auto. rewrite upd_same. cbn. lia. }
  split. { rewrite upd_other by auto. rewrite upd_same. rewrite upd_other by auto. reflexivity. }
  intros k N1 N2. rewrite !upd_other by auto. reflexivity.
Qed.

Lemma close_exact_l e accounts l l' esc d u w a p :
  keys_are accounts [esc; d; u; w; a; p] -> succeeds e accounts CloseStuckEscrow l l' ->
  (w = wrapped_mint_of e u (a_owner (l w)) /\ a = authority_of e w /\ esc = escrow_of e u t22_id (a_owner (l w))) /\
  (esc <> d /\ writable accounts esc /\ writable accounts d) /\
  (exists mu te, mint_account l u t22_id mu /\ token_account l esc t22_id te /\ t_owner te = a /\ t_amount te = 0 /\ t_state te = Initialized /\
     (distinct_mint_exts mu -> distinct_acct_exts te -> ~ healthy mu te)) /\
  l' esc = mkAcc 0 (DRaw []) system_id /\
  l' d = mkAcc (lamports l d + lamports l esc) (a_data (l d)) (a_owner (l d)) /\
  forall k, k <> esc -> k <> d -> l' k = l k.
Proof.
  intros [more Hk] H. unfold succeeds in H. rewrite close_outcome in H.
  destruct (process_close_inv e (mkCtx tw_id accounts) l l' esc d u w a p more Hk eq_refl H)
    as (Oe & Ou & Ew & Ea & Ee & et & m & msc & Ht & Hto & Ham & Hst & Hm & Hg & Ems & Hs & Ndu & Hc).
  apply pod_unpack_tok_inv in Ht. destruct Ht as [Hd Hns]. apply pod_unpack_mint_inv in Hm. destruct Hm as [Hmd Hmi].
  destruct (tok_close_tok_inv _ _ _ _ _ _ _ _ _ _ Hd Hc) as (N & _ & _ & W1 & W2 & _ & _ & L1 & L2 & Lo).
  split; [auto|]. destruct Hs as [_ Hw]. cbn in Hw.
  split. { split; [exact N|]. split; apply writable_is_wr; apply Hw; assumption. }
  split. { exists m, et. split; [split; [exact Ou|split; assumption]|]. split; [split; [exact Oe|split; assumption]|].
    split; [exact Hto|]. split; [exact Ham|]. split; [exact Hst|]. intros D1 D2 Hh.
    apply (good_state_healthy m et D1 D2) in Hh. congruence. }
  split; [exact L1|]. split; [exact L2|]. exact Lo.
Qed.

Lemma findable_get e s p : derivable e s p -> find_program_address e s p = Ok (pda e s p, find_bump e s p).
Proof. intro H. apply find_pda_findable, derivable_findable, H. Qed.

(** Evaluation up to the extension comparison. *)
Lemma process_close_eval e c l esc d u w a p more mu te :
  map i_key (c_infos c) = esc :: d :: u :: w :: a :: p :: more -> c_prog c = tw_id ->
  close_addresses_exist e u (a_owner (l w)) ->
  w = wrapped_mint_of e u (a_owner (l w)) -> a = authority_of e w -> esc = escrow_of e u t22_id (a_owner (l w)) ->
  mint_account l u t22_id mu -> token_account l esc t22_id te -> t_owner te = a -> t_amount te = 0 -> t_state te = Initialized ->
  exists seeds, create_program_address e seeds tw_id = Ok a /\
  process_close_stuck_escrow e c l =
    if in_good_state (map acct_ext_type_of (t_exts te)) (required_account_extensions mu) then Err (ETw EscrowInGoodState)
    else invoke_signed e c [u] (mkIx t22_id [meta_w esc false; meta_w d false; meta_r a true] (IxTok TiCloseAccount)) [esc; d; a] [seeds] l.
Proof.
  intros Hk Hp (D1 & D2 & D3) Ew Ea Ee (Ou & Du & Iu) (Oe & De & Se) To Ta Ts.
  destruct (c_infos c) as [|i0 [|i1 [|i2 [|i3 [|i4 [|i5 r]]]]]] eqn:Hc; try discriminate.
  cbn in Hk. injection Hk as K0 K1 K2 K3 K4 K5 Kr.
  unfold process_close_stuck_escrow. rewrite Hc. cbv zeta. rewrite K0, K1, K2, K3, K4. rewrite Oe, Ou. cbn [pk_eqb t22_id N.eqb Pos.eqb andb]. 
  rewrite bind_guard_true by reflexivity.
  unfold get_wrapped_mint_address, get_wrapped_mint_address_for_program, get_wrapped_mint_address_with_seed_for_program.
  rewrite (findable_get _ _ _ D1). cbn [bind fst].
  change (pda e (wrapped_mint_seeds u (a_owner (l w))) tw_id) with (wrapped_mint_of e u (a_owner (l w))).
  rewrite <- Ew. rewrite bind_guard_true by apply pk_eqb_refl.
  unfold get_wrapped_mint_authority_with_seed, get_wrapped_mint_authority_with_seed_for_program.
  rewrite <- Ew in D2, D3. pose proof (findable_get _ _ _ D2) as F2. rewrite F2. cbn [bind fst snd].
  change (pda e (wrapped_mint_authority_seeds w) tw_id) with (authority_of e w) in *. rewrite <- Ea in *.
  rewrite bind_guard_true by apply pk_eqb_refl.
  unfold get_associated_token_address. pose proof (findable_get _ _ _ D3) as F3. 
  rewrite F3. cbn [bind fst].
  assert (E3 : pda e (ata_seeds a u t22_id) ata_id = esc).
  { rewrite Ee. unfold escrow_of, escrow_for. fold (wrapped_mint_of e u (a_owner (l w))). rewrite <- Ew. fold (authority_of e w). rewrite <- Ea. reflexivity. }
  rewrite E3. rewrite bind_guard_true by apply pk_eqb_refl.
  rewrite De. rewrite pod_unpack_tok_ok by exact Se. cbn [bind]. rewrite To. rewrite bind_guard_true by apply pk_eqb_refl.
  rewrite Ta. rewrite bind_guard_true by reflexivity. rewrite Ts. rewrite bind_guard_true by reflexivity.
  rewrite Du. rewrite pod_unpack_mint_ok by exact Iu. cbn [bind].
  eexists. split. { apply find_pda_create in F2. exact F2. }
  destruct (in_good_state _ _); [reflexivity|]. reflexivity.
Qed.

Lemma close_healthy_l e accounts l esc d u w a p mu te :
  keys_are accounts [esc; d; u; w; a; p] -> close_addresses_exist e u (a_owner (l w)) ->
  w = wrapped_mint_of e u (a_owner (l w)) -> a = authority_of e w -> esc = escrow_of e u t22_id (a_owner (l w)) ->
  mint_account l u t22_id mu -> token_account l esc t22_id te -> t_owner te = a -> t_amount te = 0 -> t_state te = Initialized ->
  distinct_mint_exts mu -> distinct_acct_exts te -> healthy mu te ->
  fails e accounts CloseStuckEscrow l (ETw EscrowInGoodState).
Proof.
  intros [more Hk] Ad Ew Ea Ee Hu He To Ta Ts D1 D2 Hh. unfold fails. rewrite close_outcome.
  destruct (process_close_eval e (mkCtx tw_id accounts) l esc d u w a p more mu te Hk eq_refl Ad Ew Ea Ee Hu He To Ta Ts) as (s & _ & ->).
  apply (good_state_healthy mu te D1 D2) in Hh. rewrite Hh. reflexivity.
Qed.

Lemma close_stuck_l e accounts l esc d u w a more mu te :
  map i_key accounts = [esc; d; u; w; a; t22_id] ++ more -> close_addresses_exist e u (a_owner (l w)) ->
  w = wrapped_mint_of e u (a_owner (l w)) -> a = authority_of e w -> esc = escrow_of e u t22_id (a_owner (l w)) ->
  mint_account l u t22_id mu -> token_account l esc t22_id te -> t_owner te = a -> t_amount te = 0 -> t_state te = Initialized ->
  distinct_mint_exts mu -> distinct_acct_exts te -> ~ healthy mu te ->
  writable accounts esc -> writable accounts d -> d <> esc -> d <> u ->
  t_close te = None -> withheld te = 0 -> confidential_of (t_exts te) = 0 -> cpi_guard_locked te = false ->
  (forall m, a_data (l a) <> DMultisig m) ->
  exists l', succeeds e accounts CloseStuckEscrow l l'.
Proof.
  intros Hk Ad Ew Ea Ee Hu He To Ta Ts D1 D2 Hh We Wd Nde Ndu Hc Hw Hcf Hg Hms. unfold succeeds. rewrite close_outcome.
  destruct (process_close_eval e (mkCtx tw_id accounts) l esc d u w a t22_id more mu te Hk eq_refl Ad Ew Ea Ee Hu He To Ta Ts) as (s & Hs & ->).
  destruct (in_good_state _ _) eqn:G. { exfalso. apply Hh. apply (good_state_healthy mu te D1 D2). exact G. }
  apply writable_is_wr in We, Wd.
  assert (Tp : is_tw_pda a = true) by (rewrite Ea; apply is_tw_pda_authority).
  rewrite (invoke_signed_eval _ _ _ _ _ _ _ [a]).
  2:{ cbn. intros m [<-|[<-|[<-|[]]]] Wm [X|[]]; cbn in X, Wm; [|congruence|discriminate].
      - rewrite Ee in X. apply (ata_neq_mint e (authority_of e (wrapped_mint_of e u (a_owner (l w)))) u t22_id). symmetry. exact X.
    }
  2:{ cbn. rewrite Hs. reflexivity. }
  2:{ cbn. apply has_key_keys. rewrite Hk. cbn. tauto. }
  2:{ cbn. intros m Hm. split; [destruct Hm as [<-|[<-|[<-|[]]]]; cbn; tauto|]. apply has_key_keys. rewrite Hk. destruct Hm as [<-|[<-|[<-|[]]]]; cbn; tauto. }
  2:{ cbn [ix_metas c_infos]. intros m [<-|[<-|[<-|[]]]] X; cbn [i_key meta_w meta_r]; [exact We|exact Wd|discriminate]. }
  2:{ cbn. intros m [<-|[<-|[<-|[]]]] X; cbn in *; try discriminate. auto. }
  cbn [ix_prog ix_metas ix_body]. rewrite exec_program_tok by (right; reflexivity). cbn [tok_exec map meta_w meta_r i_key].
  destruct He as (Oe & De & Se). unfold tok_close. rewrite De.
  rewrite bind_guard_true by (apply negb_true_iff, pk_eqb_neq; congruence).
  rewrite unpack_tok_ok; [|exact Se|discriminate]. cbn [bind]. rewrite Ta.
  rewrite bind_guard_true by (destruct (t_native te); reflexivity). rewrite Hc, To.
  assert (Na : pk_eqb a system_id || pk_eqb a incinerator_id = false).
  { apply orb_false_iff. split; apply pk_eqb_neq; intro X; rewrite X in Tp; discriminate. }
  rewrite Na. rewrite Hg. cbn [andb negb orb]. rewrite bind_guard_true by reflexivity.
  match goal with |- context [validate_owner ?p ?l ?ms ?x ?y ?s] => assert (V : validate_owner p l ms x y s = Ok tt) end.
  { apply validate_owner_ok. { unfold is_sig. cbn. rewrite pk_eqb_refl. rewrite !orb_true_r. reflexivity. }
    intros m Hm. exfalso. exact (Hms m Hm). }
  rewrite V. cbn [bind]. rewrite Hcf. rewrite bind_guard_true by reflexivity.
  change (withheld_of (t_exts te)) with (withheld te). rewrite Hw. rewrite bind_guard_true by reflexivity.
  unfold move_lamports. rewrite bind_guard_true.
  2:{ unfold is_wr. cbn. rewrite !pk_eqb_refl. cbn. rewrite !orb_true_r. reflexivity. }
  rewrite bind_guard_true by (apply pk_eqb_eq; exact Oe). rewrite bind_guard_true by (apply N.leb_refl). cbv zeta. cbn [bind].
  unfold delete_account. rewrite bind_guard_true. 2:{ unfold is_wr. cbn. rewrite !pk_eqb_refl. reflexivity. }
  rewrite bind_guard_true. 2:{ apply pk_eqb_eq. rewrite upd_other by congruence. rewrite upd_same. exact Oe. }
  eexists. reflexivity.
Qed.

(** A token account freshly initialised (with ImmutableOwner, as the associated-token program
    does) for a mint is healthy. *)
Lemma fresh_type ty : acct_ext_type_of (fresh_acct_ext ty) = ty.
Proof. destruct ty; reflexivity. Qed.
Lemma fresh_healthy_l m t : t_exts t = init_account_exts t22_id m true -> healthy m t.
Proof.
  intros E ty. rewrite E. unfold init_account_exts. cbn [pk_eqb t22_id spl_token_id N.eqb Pos.eqb].
  rewrite map_map, (map_ext _ (fun x => x)), map_id by apply fresh_type.
  cbn [app In]. rewrite filter_In, required_demands. destruct (acct_ext_type_eqb ty XtImmutableOwner) eqn:F.
  - apply acct_ext_type_eqb_eq in F. subst ty. intuition.
  - split; [intros [H|[H _]]; auto|]. intros [H| ->]; [right; auto|discriminate].
Qed.
Lemma init_account_healthy e ms k mnt owner l l' :
  tok_init_account e t22_id ms k mnt owner true l = Ok l' ->
  exists m t, mint_account l mnt t22_id m /\ a_data (l' k) = DTok t /\ t_mint t = mnt /\ t_owner t = owner /\ healthy m t.
Proof.
  unfold tok_init_account. intro H. inv_ok.
  match goal with X : unpack_mint _ _ = Ok ?m |- _ => apply unpack_mint_inv in X; destruct X as (X1 & X2 & _); exists m end.
  match goal with X : set_data _ _ _ _ _ = Ok _ |- _ => apply set_data_inv in X; destruct X as (_ & O & ->) end.
  eexists. split. { split; [|split; assumption]. match goal with X : _ || _ = true |- _ => cbn in X; apply pk_eqb_eq in X; exact X end. }
  split; [rewrite upd_same; reflexivity|]. split; [reflexivity|]. split; [reflexivity|]. apply fresh_healthy_l. reflexivity.
Qed.
