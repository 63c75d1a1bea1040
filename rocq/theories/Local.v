(** * Local.v — lemmas for PropLocal.v: what an instruction does depends only on the accounts it is
    given. *)
From Verif Require Import Base Codec State Pda TokenProg Cpi Meta Ata Processor Spec LocalSpec.

(** ** Relational reasoning *)
Lemma al_bind ks x y f g :
  alike ks x y -> (forall a b, agree ks a b -> alike ks (f a) (g b)) -> alike ks (bind x f) (bind y g).
Proof. destruct x, y; cbn; intuition. Qed.
Lemma al_same ks A (x : res A) f g :
  (forall a, alike ks (f a) (g a)) -> alike ks (bind x f) (bind x g).
Proof. destruct x; cbn; intuition. Qed.
Lemma al_ok ks a b : agree ks a b -> alike ks (Ok a) (Ok b).
Proof. intro H; exact H. Qed.
Lemma al_refl ks a : alike ks a a.
Proof. destruct a; cbn; [intros k _; reflexivity | reflexivity]. Qed.

Lemma agree_upd ks l1 l2 k a b : agree ks l1 l2 -> a = b -> agree ks (upd l1 k a) (upd l2 k b).
Proof. intros A -> x I. unfold upd. destruct (pk_eqb k x); [reflexivity | exact (A x I)]. Qed.
Lemma agree_incl ks ks' l1 l2 : incl ks' ks -> agree ks l1 l2 -> agree ks' l1 l2.
Proof. intros I A k K. exact (A k (I k K)). Qed.
Lemma alike_incl ks ks' r1 r2 : incl ks' ks -> alike ks r1 r2 -> alike ks' r1 r2.
Proof. intro I. destruct r1, r2; cbn; auto. apply agree_incl. exact I. Qed.
Lemma is_wr_in ms k : is_wr ms k = true -> In k (keys ms).
Proof.
  unfold is_wr. rewrite existsb_exists. intros (i & I & B). apply andb_true_iff in B. destruct B as [B _].
  apply pk_eqb_eq in B. rewrite <- B. apply in_map. exact I.
Qed.
Lemma has_key_in ms k : has_key ms k = true -> In k (keys ms).
Proof.
  unfold has_key. rewrite existsb_exists. intros (i & I & B).
  apply pk_eqb_eq in B. rewrite <- B. apply in_map. exact I.
Qed.

(** [reads]: use the agreement for every address known to be in [ks]. *)
Ltac reads :=
  repeat match goal with
  | A : agree ?ks ?l1 ?l2, I : In ?k ?ks |- context [?l2 ?k] => rewrite <- (A k I)
  end.
Ltac same_step :=
  reads;
  lazymatch goal with
  | |- alike _ (bind ?x _) (bind ?x _) => apply al_same; intro
  | |- alike _ ?x ?x => apply al_refl
  | |- alike _ (if ?b then _ else _) (if ?b then _ else _) => destruct b
  | |- alike _ (match ?b with _ => _ end) (match ?b with _ => _ end) => destruct b
  | |- alike _ (bind (match ?b with _ => _ end) _) (bind (match ?b with _ => _ end) _) => destruct b
  end.

Lemma set_data_al ks prog ms k d l1 l2 : agree ks l1 l2 -> In k ks ->
  alike ks (set_data prog ms k d l1) (set_data prog ms k d l2).
Proof. intros A K. unfold set_data. repeat same_step. apply al_ok. apply agree_upd; [exact A |]. reads. reflexivity. Qed.
Lemma move_lamports_al ks prog ms from to n l1 l2 : agree ks l1 l2 -> In from ks -> In to ks ->
  alike ks (move_lamports prog ms from to n l1) (move_lamports prog ms from to n l2).
Proof.
  intros A F T. unfold move_lamports. repeat same_step. cbv zeta. apply al_ok.
  assert (A1 : agree ks (upd l1 from (with_lamports (a_lamports (l1 from) - n) (l1 from)))
                        (upd l2 from (with_lamports (a_lamports (l1 from) - n) (l1 from))))
    by (apply agree_upd; [exact A | reflexivity]).
  apply agree_upd; [exact A1 |]. rewrite (A1 to T). reflexivity.
Qed.
Lemma delete_account_al ks prog ms k l1 l2 : agree ks l1 l2 -> In k ks ->
  alike ks (delete_account prog ms k l1) (delete_account prog ms k l2).
Proof. intros A K. unfold delete_account. repeat same_step. apply al_ok. apply agree_upd; [exact A |]. reads. reflexivity. Qed.
Lemma validate_owner_loc ks prog l1 l2 ms x auth signers : agree ks l1 l2 -> In auth ks ->
  validate_owner prog l1 ms x auth signers = validate_owner prog l2 ms x auth signers.
Proof. intros A I. unfold validate_owner. reads. reflexivity. Qed.
Lemma authorize_debit_loc ks prog l1 l2 ms cpi t m auth signers n self : agree ks l1 l2 -> In auth ks ->
  authorize_debit prog l1 ms cpi t m auth signers n self = authorize_debit prog l2 ms cpi t m auth signers n self.
Proof. intros A I. unfold authorize_debit. rewrite !(validate_owner_loc ks prog l1 l2 _ _ _ _ A I). reflexivity. Qed.
Lemma move_native_al ks prog ms t src dst n l1 l2 : agree ks l1 l2 -> In src ks -> In dst ks ->
  alike ks (move_native prog ms t src dst n l1) (move_native prog ms t src dst n l2).
Proof.
  intros A S D. unfold move_native. destruct (t_native t); [apply move_lamports_al; assumption | exact A].
Qed.

Lemma sum_lamports_loc ks l1 l2 : agree ks l1 l2 -> sum_lamports ks l1 = sum_lamports ks l2.
Proof.
  intro A. induction ks as [|k ks IH]; [reflexivity |]. cbn.
  rewrite (A k (or_introl eq_refl)). f_equal. apply IH. intros x I. exact (A x (or_intror I)).
Qed.
Lemma confine_al ks ms may1 may2 l1 l2 m1 m2 :
  agree ks l1 l2 -> agree (keys ms) m1 m2 -> (forall k, In k ks -> may1 k = may2 k) ->
  agree ks (confine ms may1 l1 m1) (confine ms may2 l2 m2).
Proof.
  intros A B M k I. unfold confine. rewrite <- (M k I).
  destruct (is_wr ms k) eqn:W; cbn; [| exact (A k I)].
  destruct (may1 k); [exact (B k (is_wr_in _ _ W)) | exact (A k I)].
Qed.
Lemma balanced_loc ms l1 l2 m1 m2 : agree (keys ms) l1 l2 -> agree (keys ms) m1 m2 -> balanced ms l1 m1 = balanced ms l2 m2.
Proof.
  intros A B. unfold balanced.
  assert (I : incl (keys_of ms) (keys ms)) by (intros x; unfold keys_of; rewrite nodup_In; auto).
  rewrite (sum_lamports_loc _ l1 l2 (agree_incl _ _ _ _ I A)).
  rewrite (sum_lamports_loc _ m1 m2 (agree_incl _ _ _ _ I B)). reflexivity.
Qed.
Lemma run_hook_al ks e m ms n l1 l2 : sees_its_accounts e -> incl (keys ms) ks -> agree ks l1 l2 ->
  alike ks (run_hook e m ms n l1) (run_hook e m ms n l2).
Proof.
  intros (H & _) I A. unfold run_hook. destruct (ext_hook m) as [p|]; [| exact A].
  pose proof (H p ms n l1 l2 (agree_incl _ _ _ _ I A)) as X.
  destruct (e_hook e p ms n l1) as [m1|], (e_hook e p ms n l2) as [m2|]; cbn in X; try contradiction; [| exact X].
  cbn [bind]. cbv zeta.
  assert (C : agree ks (confine ms (hook_may l1) l1 m1) (confine ms (hook_may l2) l2 m2)).
  { apply confine_al; [exact A | exact X |]. intros k K. unfold hook_may. rewrite (A k K). reflexivity. }
  rewrite (balanced_loc ms l1 l2 _ _ (agree_incl _ _ _ _ I A) (agree_incl _ _ _ _ I C)).
  apply al_same. intros _. exact C.
Qed.
Lemma external_exec_al ks e p ms l1 l2 : sees_its_accounts e -> incl (keys ms) ks -> agree ks l1 l2 ->
  alike ks (external_exec e p ms l1) (external_exec e p ms l2).
Proof.
  intros (_ & H & _) I A. unfold external_exec.
  pose proof (H p ms l1 l2 (agree_incl _ _ _ _ I A)) as X.
  destruct (e_external e p l1 ms) as [m1|], (e_external e p l2 ms) as [m2|]; cbn in X; try contradiction; [| exact X].
  cbn [bind]. cbv zeta.
  set (c1 := confine ms _ l1 m1). set (c2 := confine ms _ l2 m2).
  assert (C : agree ks c1 c2).
  { apply confine_al; [exact A | exact X |]. intros k K. cbv beta. rewrite (A k K). reflexivity. }
  rewrite (balanced_loc ms l1 l2 c1 c2 (agree_incl _ _ _ _ I A) (agree_incl _ _ _ _ I C)).
  apply al_same. intros _. exact C.
Qed.

(** Step over a write: the ledgers that come out agree again. *)
Ltac inks := solve [assumption | auto].
Ltac write_step :=
  lazymatch goal with
  | |- alike _ (bind (set_data _ _ _ _ _) _) _ => apply al_bind; [apply set_data_al; inks |]; intros
  | |- alike _ (set_data _ _ _ _ _) _ => apply set_data_al; inks
  | |- alike _ (bind (move_lamports _ _ _ _ _ _) _) _ => apply al_bind; [apply move_lamports_al; inks |]; intros
  | |- alike _ (move_lamports _ _ _ _ _ _) _ => apply move_lamports_al; inks
  | |- alike _ (bind (move_native _ _ _ _ _ _ _) _) _ => apply al_bind; [apply move_native_al; inks |]; intros
  | |- alike _ (move_native _ _ _ _ _ _ _) _ => apply move_native_al; inks
  | |- alike _ (bind (delete_account _ _ _ _) _) _ => apply al_bind; [apply delete_account_al; inks |]; intros
  | |- alike _ (delete_account _ _ _ _) _ => apply delete_account_al; inks
  | |- alike _ (run_hook _ _ _ _ _) _ => apply run_hook_al; inks
  | |- alike _ (Ok ?l) (Ok ?l') => apply al_ok; inks
  end.
Ltac auths :=
  repeat match goal with
  | A : agree ?ks ?l1 ?l2, I : In ?k ?ks |- context [validate_owner ?p ?l2 ?ms ?x ?k ?s] =>
      rewrite <- (validate_owner_loc ks p l1 l2 ms x k s A I)
  | A : agree ?ks ?l1 ?l2, I : In ?k ?ks |- context [authorize_debit ?p ?l2 ?ms ?c ?t ?m ?k ?s ?n ?b] =>
      rewrite <- (authorize_debit_loc ks p l1 l2 ms c t m k s n b A I)
  end.
Ltac locs := intros; cbv zeta; repeat (auths; first [same_step | write_step | progress cbv zeta]).

Lemma transfer_checked_al ks e prog cpi ms src mnt dst auth rest n dec f l1 l2 :
  sees_its_accounts e -> incl (keys ms) ks -> agree ks l1 l2 ->
  In src ks -> In mnt ks -> In dst ks -> In auth ks ->
  alike ks (tok_transfer_checked e prog cpi ms src mnt dst auth rest n dec f l1)
           (tok_transfer_checked e prog cpi ms src mnt dst auth rest n dec f l2).
Proof. unfold tok_transfer_checked. locs. Qed.

Lemma tok_exec_al ks e prog cpi ms ix l1 l2 : sees_its_accounts e -> incl (keys ms) ks -> agree ks l1 l2 ->
  alike ks (tok_exec e prog cpi ms ix l1) (tok_exec e prog cpi ms ix l2).
Proof.
  intros S I A. unfold tok_exec. fold (keys ms).
  remember (keys ms) as kk eqn:E.
  destruct kk as [|k0 [|k1 [|k2 [|k3 r]]]];
  try (assert (I0 : In k0 ks) by (apply I; cbn; auto)); try (assert (I1 : In k1 ks) by (apply I; cbn; auto));
  try (assert (I2 : In k2 ks) by (apply I; cbn; auto)); try (assert (I3 : In k3 ks) by (apply I; cbn; auto));
  rewrite E in I; clear E;
  (destruct ix; try reflexivity;
  unfold tok_init_mint, tok_init_ext, tok_transfer_plain, tok_mint_to, tok_burn, tok_close, tok_md_initialize, tok_md_update,
    tok_md_remove, md_authorized, tok_init_account, tok_sync_native, tok_init_multisig, tok_approve, tok_revoke, tok_set_authority,
    tok_freeze, tok_update_ext, tok_update_acct_exts, tok_confidential, tok_harvest, tok_confidential_transfer,
    tok_withdraw_withheld, tok_withdraw_withheld_from, tok_withdraw_excess, tok_transfer_checked, write_mint_exts; locs).
Qed.

(** ** Other programs, and cross-program calls *)
Ltac upds := apply al_ok; repeat (apply agree_upd; [| reads; reflexivity]); inks.
Lemma sys_exec_al ks ms ix l1 l2 : incl (keys ms) ks -> agree ks l1 l2 -> alike ks (sys_exec ms ix l1) (sys_exec ms ix l2).
Proof.
  intros I A. unfold sys_exec. fold (keys ms). destruct ix, (keys ms) as [|k r]; try reflexivity;
  assert (K : In k ks) by (apply I; cbn; auto); locs; try (apply al_ok; inks); upds.
Qed.
Lemma mpl_exec_al ks e ms ix l1 l2 : incl (keys ms) ks -> agree ks l1 l2 -> alike ks (mpl_exec e ms ix l1) (mpl_exec e ms ix l2).
Proof.
  intros I A. unfold mpl_exec. fold (keys ms).
  destruct ix, (keys ms) as [|k0 [|k1 [|k2 [|k3 [|k4 r]]]]]; try reflexivity;
  assert (I0 : In k0 ks) by (apply I; cbn; auto); assert (I1 : In k1 ks) by (apply I; cbn; auto);
  try (assert (I2 : In k2 ks) by (apply I; cbn; auto)); try (assert (I3 : In k3 ks) by (apply I; cbn; auto));
  locs.
  apply al_ok.
  match goal with |- agree _ (upd ?x1 _ _) (upd ?x2 _ _) => assert (A1 : agree ks x1 x2) by (apply agree_upd; [exact A | reflexivity]) end.
  apply agree_upd; [exact A1 |]. rewrite (A1 k0 I0). reflexivity.
Qed.
Lemma exec_program_al ks e p ms b l1 l2 : sees_its_accounts e -> incl (keys ms) ks -> agree ks l1 l2 ->
  alike ks (exec_program e p ms b l1) (exec_program e p ms b l2).
Proof.
  intros S I A. unfold exec_program.
  destruct (pk_eqb p system_id); [destruct b; try reflexivity; apply sys_exec_al; assumption |].
  destruct (pk_eqb p spl_token_id || pk_eqb p t22_id); [destruct b; try reflexivity; apply tok_exec_al; assumption |].
  destruct (pk_eqb p mpl_id); [destruct b; try reflexivity; apply mpl_exec_al; assumption |].
  apply external_exec_al; assumption.
Qed.
(** A call passes on only accounts of the caller. *)
Lemma invoke_signed_al e c borrowed ix passed seeds l1 l2 : sees_its_accounts e -> agree (keys (c_infos c)) l1 l2 ->
  alike (keys (c_infos c)) (invoke_signed e c borrowed ix passed seeds l1) (invoke_signed e c borrowed ix passed seeds l2).
Proof.
  intros S A. unfold invoke_signed. apply al_same; intros _. apply al_same; intro. apply al_same; intros _.
  destruct (forallb (fun m => pk_mem (i_key m) passed && has_key (c_infos c) (i_key m)) (ix_metas ix)) eqn:F;
    cbn [guard bind]; [| reflexivity].
  apply al_same; intros _. apply al_same; intros _. apply exec_program_al; [exact S | | exact A].
  intros k K. unfold keys in K. apply in_map_iff in K. destruct K as (m & <- & M).
  rewrite forallb_forall in F. specialize (F m M). apply andb_true_iff in F. apply has_key_in. exact (proj2 F).
Qed.
Lemma transfer_metas_loc ks l1 l2 src mnt dst auth extra : agree ks l1 l2 -> In auth ks ->
  transfer_metas l1 src mnt dst auth extra = transfer_metas l2 src mnt dst auth extra.
Proof. intros A I. unfold transfer_metas, auth_is_signer. reads. reflexivity. Qed.
Lemma invoke_transfer_al e c borrowed p src mnt dst auth more n dec seeds l1 l2 :
  sees_its_accounts e -> agree (keys (c_infos c)) l1 l2 -> In auth (keys (c_infos c)) ->
  alike (keys (c_infos c)) (invoke_transfer_checked e c borrowed p src mnt dst auth more n dec seeds l1)
                           (invoke_transfer_checked e c borrowed p src mnt dst auth more n dec seeds l2).
Proof.
  intros S A I. unfold invoke_transfer_checked. apply al_same; intro.
  destruct S as (S1 & S2 & S3 & S4). rewrite <- (S3 _ more l1 l2 A). apply al_same; intro.
  rewrite <- (transfer_metas_loc _ l1 l2 _ _ _ _ _ A I). apply invoke_signed_al; [| exact A].
  repeat split; assumption.
Qed.
Lemma invoke_transfer_fee_al e c borrowed p src mnt dst auth more n dec fee seeds l1 l2 :
  sees_its_accounts e -> agree (keys (c_infos c)) l1 l2 -> In auth (keys (c_infos c)) ->
  alike (keys (c_infos c)) (invoke_transfer_checked_with_fee e c borrowed p src mnt dst auth more n dec fee seeds l1)
                           (invoke_transfer_checked_with_fee e c borrowed p src mnt dst auth more n dec fee seeds l2).
Proof.
  intros S A I. unfold invoke_transfer_checked_with_fee. apply al_same; intro.
  destruct S as (S1 & S2 & S3 & S4). rewrite <- (S3 _ more l1 l2 A). apply al_same; intro.
  rewrite <- (transfer_metas_loc _ l1 l2 _ _ _ _ _ A I). apply invoke_signed_al; [| exact A].
  repeat split; assumption.
Qed.

(** ** Token-wrap's instructions *)
Ltac call_step :=
  lazymatch goal with
  | |- alike _ (bind (invoke_signed _ _ _ _ _ _ _) _) _ => apply al_bind; [apply invoke_signed_al; inks |]; intros
  | |- alike _ (invoke_signed _ _ _ _ _ _ _) _ => apply invoke_signed_al; inks
  | |- alike _ (bind (invoke _ _ _ _ _ _) _) _ => apply al_bind; [apply invoke_signed_al; inks |]; intros
  | |- alike _ (invoke _ _ _ _ _ _) _ => apply invoke_signed_al; inks
  | |- alike _ (bind (invoke_transfer_checked _ _ _ _ _ _ _ _ _ _ _ _ _) _) _ => apply al_bind; [apply invoke_transfer_al; inks |]; intros
  | |- alike _ (invoke_transfer_checked _ _ _ _ _ _ _ _ _ _ _ _ _) _ => apply invoke_transfer_al; inks
  | |- alike _ (invoke_transfer_checked_with_fee _ _ _ _ _ _ _ _ _ _ _ _ _ _) _ => apply invoke_transfer_fee_al; inks
  end.
Lemma init_ext_al e c p w x l1 l2 : sees_its_accounts e -> agree (keys (c_infos c)) l1 l2 ->
  alike (keys (c_infos c)) (invoke_init_ext e c p w x l1) (invoke_init_ext e c p w x l2).
Proof. intros S A. unfold invoke_init_ext. same_step. call_step. Qed.
Lemma default_init_al e c p w l1 l2 : sees_its_accounts e -> agree (keys (c_infos c)) l1 l2 ->
  alike (keys (c_infos c)) (default_init e c p w l1) (default_init e c p w l2).
Proof.
  intros S A. unfold default_init. apply al_bind; [apply init_ext_al; assumption |]. intros a b B.
  same_step. apply init_ext_al; assumption.
Qed.
Lemma write_key_al c k v l1 l2 : agree (keys (c_infos c)) l1 l2 -> In k (keys (c_infos c)) ->
  alike (keys (c_infos c)) (write_key c k v l1) (write_key c k v l2).
Proof. intros A K. unfold write_key. repeat same_step. upds. Qed.

Lemma create_al e c idem l1 l2 : sees_its_accounts e -> agree (keys (c_infos c)) l1 l2 ->
  alike (keys (c_infos c)) (process_create_mint default_customizer e c idem l1) (process_create_mint default_customizer e c idem l2).
Proof.
  intros S A. unfold process_create_mint.
  destruct (c_infos c) as [|wi [|bi [|ui [|sy [|pi r]]]]] eqn:E; try reflexivity. rewrite <- E in *.
  assert (Iw : In (i_key wi) (keys (c_infos c))) by (rewrite E; cbn; auto).
  assert (Ib : In (i_key bi) (keys (c_infos c))) by (rewrite E; cbn; auto).
  assert (Iu : In (i_key ui) (keys (c_infos c))) by (rewrite E; cbn; auto).
  cbv zeta. repeat same_step; try exact A.
  call_step. call_step. cbn [cu_init cu_freeze_dec default_customizer].
  apply al_bind; [destruct (pk_eqb (i_key pi) t22_id); [apply default_init_al; assumption | assumption] |]. intros.
  unfold copy_freeze_dec. repeat first [same_step | call_step]. apply write_key_al; assumption.
Qed.
Lemma wrap_al e c n l1 l2 : sees_its_accounts e -> agree (keys (c_infos c)) l1 l2 ->
  alike (keys (c_infos c)) (process_wrap e c n l1) (process_wrap e c n l2).
Proof.
  intros S A. unfold process_wrap. same_step.
  destruct (c_infos c) as [|ri [|wi [|ai [|upi [|wpi [|si [|ui [|ei [|ti more]]]]]]]]] eqn:E; try reflexivity. rewrite <- E in *.
  assert (Ie : In (i_key ei) (keys (c_infos c))) by (rewrite E; cbn; auto 12).
  assert (Iu : In (i_key ui) (keys (c_infos c))) by (rewrite E; cbn; auto 12).
  assert (It : In (i_key ti) (keys (c_infos c))) by (rewrite E; cbn; auto 12).
  cbv zeta. repeat same_step.
  all: apply al_bind; [call_step |]; intros; same_step; call_step.
Qed.
Lemma unwrap_al e c n l1 l2 : sees_its_accounts e -> agree (keys (c_infos c)) l1 l2 ->
  alike (keys (c_infos c)) (process_unwrap e c n l1) (process_unwrap e c n l2).
Proof.
  intros S A. unfold process_unwrap. same_step.
  destruct (c_infos c) as [|ei [|ri [|ai [|ui [|wpi [|upi [|si [|wi [|ti more]]]]]]]]] eqn:E; try reflexivity. rewrite <- E in *.
  assert (Iu : In (i_key ui) (keys (c_infos c))) by (rewrite E; cbn; auto 12).
  assert (Ia : In (i_key ai) (keys (c_infos c))) by (rewrite E; cbn; auto 12).
  assert (It : incl (i_key ti :: keys more) (keys (c_infos c))) by (rewrite E; intros k K; cbn; cbn in K; tauto).
  cbv zeta. do 6 same_step.
  rewrite <- (proj2 (proj2 (proj2 S)) _ _ _ _ (agree_incl _ _ _ _ It A)).
  repeat first [same_step | call_step].
Qed.
Lemma close_stuck_al e c l1 l2 : sees_its_accounts e -> agree (keys (c_infos c)) l1 l2 ->
  alike (keys (c_infos c)) (process_close_stuck_escrow e c l1) (process_close_stuck_escrow e c l2).
Proof.
  intros S A. unfold process_close_stuck_escrow.
  destruct (c_infos c) as [|ei [|di [|ui [|wi [|ai [|x r]]]]]] eqn:E; try reflexivity. rewrite <- E in *.
  assert (Ie : In (i_key ei) (keys (c_infos c))) by (rewrite E; cbn; auto 12).
  assert (Iu : In (i_key ui) (keys (c_infos c))) by (rewrite E; cbn; auto 12).
  assert (Iw : In (i_key wi) (keys (c_infos c))) by (rewrite E; cbn; auto 12).
  cbv zeta. repeat first [same_step | call_step].
Qed.

(** Metadata of the unwrapped token. *)
Lemma extract_loc e c u src op l1 l2 : agree (keys (c_infos c)) l1 l2 -> In u (keys (c_infos c)) ->
  (forall i, src = Some i -> In (i_key i) (keys (c_infos c))) ->
  extract_token_metadata e c l1 u src op = extract_token_metadata e c l2 u src op.
Proof.
  intros A U M. unfold extract_token_metadata, resolve_token_2022_source_metadata, read_metaplex_for_mint,
    metaplex_to_token_2022_metadata, cpi_emit_and_decode.
  destruct src as [i|]; cbn [of_option bind]; [| reads; reflexivity].
  pose proof (M i eq_refl) as I. reads. reflexivity.
Qed.
Lemma cpi_update_al e c p w a f v seeds l1 l2 : sees_its_accounts e -> agree (keys (c_infos c)) l1 l2 ->
  alike (keys (c_infos c)) (cpi_update_field e c p w a f v seeds l1) (cpi_update_field e c p w a f v seeds l2).
Proof. intros S A. apply invoke_signed_al; assumption. Qed.
Lemma update_fields_al e c p w a fs wm um seeds : sees_its_accounts e -> forall l1 l2, agree (keys (c_infos c)) l1 l2 ->
  alike (keys (c_infos c)) (update_fields_if_changed e c p w a fs wm um seeds l1) (update_fields_if_changed e c p w a fs wm um seeds l2).
Proof.
  intro S. induction fs as [|f fs IH]; intros l1 l2 A; [exact A |]. cbn [update_fields_if_changed].
  apply al_bind; [| exact IH]. destruct (String.eqb _ _); [exact A | apply cpi_update_al; assumption].
Qed.
Lemma add_all_al e c p w a seeds kvs : sees_its_accounts e -> forall l1 l2, agree (keys (c_infos c)) l1 l2 ->
  alike (keys (c_infos c)) (add_all e c p w a seeds kvs l1) (add_all e c p w a seeds kvs l2).
Proof.
  intro S. induction kvs as [|[k v] r IH]; intros l1 l2 A; [exact A |]. cbn [add_all].
  apply al_bind; [apply cpi_update_al; assumption | exact IH].
Qed.
Lemma remove_stale_al e c p w a seeds ks : sees_its_accounts e -> forall l1 l2, agree (keys (c_infos c)) l1 l2 ->
  alike (keys (c_infos c)) (remove_stale e c p w a seeds ks l1) (remove_stale e c p w a seeds ks l2).
Proof.
  intro S. induction ks as [|k r IH]; intros l1 l2 A; [exact A |]. cbn [remove_stale].
  apply al_bind; [apply invoke_signed_al; assumption | exact IH].
Qed.
Lemma sync_additional_al e c p w a seeds kvs f : sees_its_accounts e ->
  (forall hm l1 l2, agree (keys (c_infos c)) l1 l2 -> alike (keys (c_infos c)) (f (hm, l1)) (f (hm, l2))) ->
  forall hm l1 l2, agree (keys (c_infos c)) l1 l2 ->
  alike (keys (c_infos c)) (bind (sync_additional e c p w a seeds kvs hm l1) f) (bind (sync_additional e c p w a seeds kvs hm l2) f).
Proof.
  intros S F. induction kvs as [|[k v] r IH]; intros hm l1 l2 A; [exact (F hm l1 l2 A) |]. cbn [sync_additional].
  destruct (opt_string_eqb (hm_get k hm) (Some v)); [exact (IH _ _ _ A) |].
  pose proof (cpi_update_al e c p w a (FKey k) v seeds l1 l2 S A) as X.
  destruct (cpi_update_field e c p w a (FKey k) v seeds l1), (cpi_update_field e c p w a (FKey k) v seeds l2);
    cbn in X; try contradiction; [exact (IH _ _ _ X) | exact X].
Qed.
Lemma opt_hd_in r ks i : incl (keys r) ks -> opt_hd r = Some i -> In (i_key i) ks.
Proof. intros I H. destruct r as [|j r]; [discriminate H |]. injection H as <-. apply I. cbn. auto. Qed.
Lemma sync_t22_al e c l1 l2 : sees_its_accounts e -> agree (keys (c_infos c)) l1 l2 ->
  alike (keys (c_infos c)) (process_sync_metadata_to_token_2022 e c l1) (process_sync_metadata_to_token_2022 e c l2).
Proof.
  intros S A. unfold process_sync_metadata_to_token_2022.
  destruct (c_infos c) as [|wi [|ai [|ui [|pi r]]]] eqn:E; try reflexivity. rewrite <- E in *.
  assert (Iw : In (i_key wi) (keys (c_infos c))) by (rewrite E; cbn; auto 12).
  assert (Iu : In (i_key ui) (keys (c_infos c))) by (rewrite E; cbn; auto 12).
  assert (Ir : incl (keys r) (keys (c_infos c))) by (rewrite E; intros k K; cbn; auto 12).
  cbv zeta.
  rewrite <- (extract_loc e c (i_key ui) (opt_hd r) (opt_hd (tl r)) l1 l2 A Iu (fun i => opt_hd_in r _ i Ir)).
  repeat same_step.
  - apply al_bind; [apply update_fields_al; assumption |]. intros la lb L.
    apply sync_additional_al; [exact S | | exact L]. intros hm x y X. apply remove_stale_al; assumption.
  - call_step. apply add_all_al; assumption.
Qed.
Lemma sync_spl_al e c l1 l2 : sees_its_accounts e -> agree (keys (c_infos c)) l1 l2 ->
  alike (keys (c_infos c)) (process_sync_metadata_to_spl_token e c l1) (process_sync_metadata_to_spl_token e c l2).
Proof.
  intros S A. unfold process_sync_metadata_to_spl_token.
  destruct (c_infos c) as [|mi [|ai [|wi [|ui [|xi [|si [|ri r]]]]]]] eqn:E; try reflexivity. rewrite <- E in *.
  assert (Im : In (i_key mi) (keys (c_infos c))) by (rewrite E; cbn; auto 12).
  assert (Iw : In (i_key wi) (keys (c_infos c))) by (rewrite E; cbn; auto 12).
  assert (Iu : In (i_key ui) (keys (c_infos c))) by (rewrite E; cbn; auto 12).
  assert (Ir : incl (keys r) (keys (c_infos c))) by (rewrite E; intros k K; cbn; auto 12).
  cbv zeta.
  rewrite <- (extract_loc e c (i_key ui) (opt_hd r) (opt_hd (tl r)) l1 l2 A Iu (fun i => opt_hd_in r _ i Ir)).
  repeat first [same_step | call_step].
Qed.
Lemma pointer_al e c q l1 l2 : sees_its_accounts e -> agree (keys (c_infos c)) l1 l2 ->
  alike (keys (c_infos c)) (process_set_canonical_pointer e c q l1) (process_set_canonical_pointer e c q l2).
Proof.
  intros S A. unfold process_set_canonical_pointer.
  destruct (c_infos c) as [|ai [|pi [|ui [|si r]]]] eqn:E; try reflexivity. rewrite <- E in *.
  assert (Ip : In (i_key pi) (keys (c_infos c))) by (rewrite E; cbn; auto 12).
  assert (Iu : In (i_key ui) (keys (c_infos c))) by (rewrite E; cbn; auto 12).
  cbv zeta. repeat same_step.
  - apply al_bind; [repeat first [same_step | call_step] |]. intros. apply write_key_al; assumption.
  - apply write_key_al; assumption.
Qed.
Lemma instruction_al e prog accounts input l1 l2 : sees_its_accounts e -> agree (keys accounts) l1 l2 ->
  alike (keys accounts) (process_instruction e (mkCtx prog accounts) input l1) (process_instruction e (mkCtx prog accounts) input l2).
Proof.
  intros S A. unfold process_instruction. same_step.
  change accounts with (c_infos (mkCtx prog accounts)) at 1. change accounts with (c_infos (mkCtx prog accounts)) in A at 1.
  destruct (map_instr _ _); cbn [process_instr]; [apply create_al | apply wrap_al | apply unwrap_al | apply close_stuck_al | apply sync_t22_al
    | apply sync_spl_al | apply pointer_al]; assumption.
Qed.
