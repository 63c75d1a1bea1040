(** * FrameProofs.v — what a call can change at all: only writable accounts, never the lamport
    total, and only accounts of the executing program lose anything. *)
From Verif Require Import Base Codec State Pda TokenProg Cpi Tac PdaProofs TokProofs.

Definition ro_frame (ms : list info) (l l' : ledger) : Prop :=
  forall k, is_wr ms k = false -> l' k = l k.
Definition sum_frame (ms : list info) (l l' : ledger) : Prop :=
  forall ks, NoDup ks -> (forall k, is_wr ms k = true -> In k ks) -> sum_lamports ks l' = sum_lamports ks l.
(** Accounts of other programs keep data and owner and lose no lamports. *)
Definition own_frame (prog : pubkey) (l l' : ledger) : Prop :=
  forall k, a_owner (l k) <> prog ->
    a_data (l' k) = a_data (l k) /\ a_owner (l' k) = a_owner (l k) /\ a_lamports (l k) <= a_lamports (l' k).
Definition frame (prog : pubkey) (ms : list info) (l l' : ledger) : Prop :=
  ro_frame ms l l' /\ sum_frame ms l l' /\ own_frame prog l l'.

(** ** Sums *)
Lemma sum_ext ks l l' : (forall k, In k ks -> a_lamports (l' k) = a_lamports (l k)) -> sum_lamports ks l' = sum_lamports ks l.
Proof.
  induction ks as [|k ks IH]; intro H; cbn [sum_lamports fold_right]; [reflexivity|].
  fold (sum_lamports ks l') (sum_lamports ks l). rewrite IH by (intros; apply H; simpl; auto).
  rewrite H by (simpl; auto). reflexivity.
Qed.
Lemma sum_cons k ks l : sum_lamports (k :: ks) l = a_lamports (l k) + sum_lamports ks l.
Proof. reflexivity. Qed.
Lemma sum_upd_notin ks l k a : ~ In k ks -> sum_lamports ks (upd l k a) = sum_lamports ks l.
Proof. intro H. apply sum_ext. intros k' Hk'. rewrite upd_other; [reflexivity|]. intro X; subst; contradiction. Qed.
Lemma sum_upd_in ks l k a :
  NoDup ks -> In k ks -> sum_lamports ks (upd l k a) + a_lamports (l k) = sum_lamports ks l + a_lamports a.
Proof.
  induction ks as [|k' ks IH]; intros Hn Hi; [destruct Hi|]. inversion Hn as [|? ? Hni Hnd]; subst.
  rewrite !sum_cons. destruct (pk_dec k' k) as [->|Hne].
  - rewrite upd_same, sum_upd_notin by exact Hni. lia.
  - destruct Hi as [Hi|Hi]; [contradiction|]. rewrite upd_other by auto.
    specialize (IH Hnd Hi). lia.
Qed.
Lemma sum_perm ks ks' l : Permutation ks ks' -> sum_lamports ks l = sum_lamports ks' l.
Proof.
  induction 1 as [|k ks ks' _ IH|k k' ks|ks ks' ks'' _ IH1 _ IH2]; rewrite ?sum_cons; try reflexivity; try lia; try congruence.
Qed.
Lemma sum_filter f ks l :
  sum_lamports ks l = sum_lamports (filter f ks) l + sum_lamports (filter (fun k => negb (f k)) ks) l.
Proof.
  induction ks as [|k ks IH]; [reflexivity|]. rewrite sum_cons. cbn [filter].
  destruct (f k); cbn [negb]; rewrite sum_cons, IH; lia.
Qed.

Lemma sum_frame_any ms l l' ks :
  ro_frame ms l l' -> NoDup ks -> (forall k, is_wr ms k = true -> In k ks) ->
  sum_lamports ks l' = sum_lamports ks l -> sum_frame ms l l'.
Proof.
  intros Hro Hn Hin Hs ks' Hn' Hin'.
  rewrite (sum_filter (is_wr ms) ks l), (sum_filter (is_wr ms) ks l') in Hs.
  rewrite (sum_filter (is_wr ms) ks' l), (sum_filter (is_wr ms) ks' l').
  assert (X : forall xs, sum_lamports (filter (fun k => negb (is_wr ms k)) xs) l'
                         = sum_lamports (filter (fun k => negb (is_wr ms k)) xs) l).
  { intro xs. apply sum_ext. intros k Hk. apply filter_In in Hk. destruct Hk as [_ Hk].
    apply negb_true_iff in Hk. now rewrite Hro. }
  rewrite !X in *.
  assert (P : Permutation (filter (is_wr ms) ks) (filter (is_wr ms) ks')).
  { apply NoDup_Permutation; try (apply NoDup_filter; assumption).
    intro k. rewrite !filter_In. split; intros [_ H]; auto. }
  rewrite <- !(sum_perm _ _ _ P). lia.
Qed.

Lemma keys_of_wr ms k : is_wr ms k = true -> In k (keys_of ms).
Proof.
  intro H. apply is_wr_In in H. destruct H as (m & Hm & <- & _). unfold keys_of. apply nodup_In. now apply in_map.
Qed.

(** ** Composition *)
Lemma ro_refl ms l : ro_frame ms l l. Proof. intros k _; reflexivity. Qed.
Lemma sum_refl ms l : sum_frame ms l l. Proof. intros ks _ _; reflexivity. Qed.
Lemma own_refl p l : own_frame p l l. Proof. intros k _; repeat split; lia. Qed.
Lemma ro_trans ms l1 l2 l3 : ro_frame ms l1 l2 -> ro_frame ms l2 l3 -> ro_frame ms l1 l3.
Proof. intros H1 H2 k Hk. rewrite H2, H1; auto. Qed.
Lemma sum_trans ms l1 l2 l3 : sum_frame ms l1 l2 -> sum_frame ms l2 l3 -> sum_frame ms l1 l3.
Proof. intros H1 H2 ks Hn Hk. rewrite H2, H1; auto. Qed.
Lemma own_trans p l1 l2 l3 : own_frame p l1 l2 -> own_frame p l2 l3 -> own_frame p l1 l3.
Proof.
  intros H1 H2 k Hk. destruct (H1 k Hk) as (A & B & C).
  assert (Hk2 : a_owner (l2 k) <> p) by congruence. destruct (H2 k Hk2) as (A' & B' & C').
  repeat split; try congruence; lia.
Qed.
Lemma frame_refl p ms l : frame p ms l l.
Proof. repeat split; auto using ro_refl, sum_refl; lia. Qed.
Lemma frame_trans p ms l1 l2 l3 : frame p ms l1 l2 -> frame p ms l2 l3 -> frame p ms l1 l3.
Proof.
  intros (A & B & C) (A' & B' & C'). split; [|split].
  - eapply ro_trans; eauto. - eapply sum_trans; eauto. - eapply own_trans; eauto.
Qed.

(** ** Primitives *)
Lemma frame_upd_same_lamports p ms l k a :
  is_wr ms k = true -> a_owner (l k) = p -> a_lamports a = a_lamports (l k) -> frame p ms l (upd l k a).
Proof.
  intros Hw Ho Hl. split; [|split].
  - intros k' Hk'. rewrite upd_other; [reflexivity|]. intro X; subst; congruence.
  - intros ks _ _. apply sum_ext. intros k' _. destruct (pk_dec k k') as [->|Hne];
      [now rewrite upd_same | now rewrite upd_other].
  - intros k' Hk'. rewrite upd_other by (intro X; subst; contradiction). repeat split; lia.
Qed.
Lemma frame_set_data p ms k d l l' : set_data p ms k d l = Ok l' -> frame p ms l l'.
Proof. intro H; apply set_data_inv in H; destruct H as (W & O & ->). now apply frame_upd_same_lamports. Qed.
Lemma frame_delete p ms k l l' : delete_account p ms k l = Ok l' -> frame p ms l l'.
Proof. intro H; apply delete_account_inv in H; destruct H as (W & O & ->). now apply frame_upd_same_lamports. Qed.
Lemma frame_write_mint_exts e p ms k m x l l' : write_mint_exts e p ms k m x l = Ok l' -> frame p ms l l'.
Proof. intro H; apply write_mint_exts_inv in H; destruct H as (W & O & ->). now apply frame_upd_same_lamports. Qed.
Lemma frame_move_lamports p ms a b n l l' : move_lamports p ms a b n l = Ok l' -> frame p ms l l'.
Proof.
  intro H; apply move_lamports_inv in H; destruct H as (W1 & W2 & O & Hn & ->). cbv zeta.
  assert (Ro : ro_frame ms l (upd (upd l a (with_lamports (a_lamports (l a) - n) (l a))) b
             (with_lamports (a_lamports (upd l a (with_lamports (a_lamports (l a) - n) (l a)) b) + n)
                (upd l a (with_lamports (a_lamports (l a) - n) (l a)) b)))).
  { intros k Hk. rewrite !upd_other; [reflexivity| |]; intro X; subst; congruence. }
  split; [exact Ro|split].
  - intros ks Hnd Hin.
    pose proof (sum_upd_in ks l a (with_lamports (a_lamports (l a) - n) (l a)) Hnd (Hin _ W1)) as S1.
    set (l1 := upd l a (with_lamports (a_lamports (l a) - n) (l a))) in *.
    pose proof (sum_upd_in ks l1 b (with_lamports (a_lamports (l1 b) + n) (l1 b)) Hnd (Hin _ W2)) as S2.
    cbn [with_lamports a_lamports] in S1, S2. lia.
  - intros k Hk. destruct (pk_dec b k) as [->|Hb].
    + rewrite upd_same. rewrite upd_other by (intro X; subst; contradiction). cbn. repeat split; lia.
    + rewrite !upd_other by (auto; intro X; subst; contradiction). repeat split; lia.
Qed.
Lemma frame_move_native p ms t a b n l l' : move_native p ms t a b n l = Ok l' -> frame p ms l l'.
Proof.
  unfold move_native. destruct (t_native t); intro H; [eapply frame_move_lamports; eauto|].
  inversion H; subst; apply frame_refl.
Qed.

Lemma confine_frame ms may l l' :
  balanced ms l (confine ms may l l') = true ->
  ro_frame ms l (confine ms may l l') /\ sum_frame ms l (confine ms may l l').
Proof.
  intro H.
  assert (Ro : ro_frame ms l (confine ms may l l')).
  { intros k Hk. unfold confine. now rewrite Hk. }
  split; [exact Ro|]. apply (sum_frame_any ms l _ (keys_of ms) Ro).
  - unfold keys_of. apply NoDup_nodup.
  - apply keys_of_wr.
  - unfold balanced in H. apply N.eqb_eq in H. exact H.
Qed.
Lemma run_hook_frame e m ms n l l' : run_hook e m ms n l = Ok l' -> ro_frame ms l l' /\ sum_frame ms l l'.
Proof.
  unfold run_hook. destruct (ext_hook m); intro H; inv_ok; subst; [now apply confine_frame|].
  split; [apply ro_refl|apply sum_refl].
Qed.
Lemma run_hook_none e m ms n l l' : ext_hook m = None -> run_hook e m ms n l = Ok l' -> l' = l.
Proof. unfold run_hook. intros -> H; inversion H; auto. Qed.

(** ** Token program instructions *)
Lemma frame_transfer_ledger p ms l src dst s1 d dx amount fee :
  is_wr ms src = true -> is_wr ms dst = true -> a_owner (l src) = p -> a_owner (l dst) = p ->
  frame p ms l (transfer_ledger l src dst s1 d dx amount fee).
Proof.
  intros W1 W2 O1 O2. unfold transfer_ledger. cbv zeta.
  apply (frame_trans p ms l (upd l src (with_data (DTok (set_amount (t_amount s1 - amount) s1)) (l src)))).
  - apply (frame_upd_same_lamports p ms l src); auto.
  - apply frame_upd_same_lamports; auto.
    destruct (pk_dec src dst) as [->|Hne]; [rewrite upd_same; exact O2|rewrite upd_other by auto; exact O2].
Qed.

(** The part of a transfer before the hook runs. *)
Lemma transfer_checked_frame e prog cpi ms src mnt dst auth signers amount dec expfee l l' :
  tok_transfer_checked e prog cpi ms src mnt dst auth signers amount dec expfee l = Ok l' ->
  exists m l3, unpack_mint prog (a_data (l mnt)) = Ok m /\
    frame prog ms l l3 /\ (l' = l3 \/ run_hook e m ms amount l3 = Ok l').
Proof.
  intro H. apply transfer_checked_inv in H.
  destruct H as (s & m & fee & s1 & Hs & _ & _ & _ & Hm & _ & _ & _ & _ & _ & O1 & O2 & H).
  destruct H as [[_ ->]|(Hne & d & dx & l3 & _ & _ & _ & _ & _ & _ & _ & W1 & W2 & Hn & Hh)].
  - exists m, l. split; [exact Hm|]. split; [apply frame_refl|auto].
  - exists m, l3. split; [exact Hm|]. split; [|auto]. eapply frame_trans.
    2: eapply frame_move_native; exact Hn.
    apply frame_transfer_ledger; assumption.
Qed.

Ltac frame_chain :=
  repeat match goal with
  | H : set_data _ _ _ _ _ = Ok _ |- _ => apply frame_set_data in H
  | H : delete_account _ _ _ _ = Ok _ |- _ => apply frame_delete in H
  | H : write_mint_exts _ _ _ _ _ _ _ = Ok _ |- _ => apply frame_write_mint_exts in H
  | H : move_lamports _ _ _ _ _ _ = Ok _ |- _ => apply frame_move_lamports in H
  | H : move_native _ _ _ _ _ _ _ = Ok _ |- _ => apply frame_move_native in H
  end; subst;
  first [ assumption | apply frame_refl | eapply frame_trans; eassumption
        | eapply frame_trans; [eassumption|eapply frame_trans; eassumption] ].

Lemma frame_transfer_plain e p cpi ms src dst auth signers amount l l' :
  tok_transfer_plain e p cpi ms src dst auth signers amount l = Ok l' -> frame p ms l l'.
Proof.
  unfold tok_transfer_plain; intro H.
  repeat match type of H with bind _ _ = _ => apply bind_ok in H; let a := fresh in destruct H as [a [? H]]; cbv zeta in H end.
  destruct (pk_eqb src dst); inv_ok; frame_chain.
Qed.
Lemma frame_mint_to p ms mnt dst auth signers amount l l' :
  tok_mint_to p ms mnt dst auth signers amount l = Ok l' -> frame p ms l l'.
Proof. unfold tok_mint_to; intro H; inv_ok; frame_chain. Qed.
Lemma frame_burn p cpi ms src mnt auth signers amount l l' :
  tok_burn p cpi ms src mnt auth signers amount l = Ok l' -> frame p ms l l'.
Proof. unfold tok_burn; intro H; inv_ok; frame_chain. Qed.
Lemma frame_close p cpi ms acc dst auth signers l l' :
  tok_close p cpi ms acc dst auth signers l = Ok l' -> frame p ms l l'.
Proof. unfold tok_close; intro H; inv_ok. destruct (a_data (l acc)); inv_ok; frame_chain. Qed.
Lemma frame_init_ext p ms k x l l' : tok_init_ext p ms k x l = Ok l' -> frame p ms l l'.
Proof. unfold tok_init_ext; intro H; inv_ok; frame_chain. Qed.
Lemma frame_init_mint e p ms k dec auth frz l l' : tok_init_mint e p ms k dec auth frz l = Ok l' -> frame p ms l l'.
Proof. unfold tok_init_mint; intro H; inv_ok; frame_chain. Qed.
Lemma frame_md_initialize e p ms md ua mnt ma n s u l l' :
  tok_md_initialize e p ms md ua mnt ma n s u l = Ok l' -> frame p ms l l'.
Proof. unfold tok_md_initialize; intro H; inv_ok; frame_chain. Qed.
Lemma frame_md_update e p ms md ua f v l l' : tok_md_update e p ms md ua f v l = Ok l' -> frame p ms l l'.
Proof. unfold tok_md_update; intro H; inv_ok; frame_chain. Qed.
Lemma frame_md_remove e p ms md ua k i l l' : tok_md_remove e p ms md ua k i l = Ok l' -> frame p ms l l'.
Proof. unfold tok_md_remove; intro H; inv_ok; frame_chain. Qed.
Lemma frame_init_account e p ms k mnt owner imm l l' : tok_init_account e p ms k mnt owner imm l = Ok l' -> frame p ms l l'.
Proof. unfold tok_init_account; intro H; inv_ok; frame_chain. Qed.
Lemma frame_sync_native p ms k l l' : tok_sync_native p ms k l = Ok l' -> frame p ms l l'.
Proof. unfold tok_sync_native; intro H; inv_ok; frame_chain. Qed.
Lemma frame_init_multisig p ms k m l l' : tok_init_multisig p ms k m l = Ok l' -> frame p ms l l'.
Proof. unfold tok_init_multisig; intro H; inv_ok; frame_chain. Qed.
Lemma frame_approve p ms cpi k d a s n l l' : tok_approve p ms cpi k d a s n l = Ok l' -> frame p ms l l'.
Proof. unfold tok_approve; intro H; inv_ok; frame_chain. Qed.
Lemma frame_revoke p ms k a s l l' : tok_revoke p ms k a s l = Ok l' -> frame p ms l l'.
Proof. unfold tok_revoke; intro H; inv_ok; frame_chain. Qed.
Lemma frame_set_authority p ms cpi k a s ty new l l' : tok_set_authority p ms cpi k a s ty new l = Ok l' -> frame p ms l l'.
Proof.
  unfold tok_set_authority; intro H. destruct (a_data (l k)); inv_ok; destruct ty; inv_ok; frame_chain.
Qed.
Lemma frame_freeze p ms k mnt a s f l l' : tok_freeze p ms k mnt a s f l = Ok l' -> frame p ms l l'.
Proof. unfold tok_freeze; intro H; inv_ok; frame_chain. Qed.
Lemma frame_update_ext e p ms k a s x l l' : tok_update_ext e p ms k a s x l = Ok l' -> frame p ms l l'.
Proof. unfold tok_update_ext; intro H; inv_ok; frame_chain. Qed.
Lemma frame_update_acct_exts p ms k a s x l l' : tok_update_acct_exts p ms k a s x l = Ok l' -> frame p ms l l'.
Proof. unfold tok_update_acct_exts; intro H; inv_ok; frame_chain. Qed.
Lemma frame_confidential p ms k mnt a s i n l l' : tok_confidential p ms k mnt a s i n l = Ok l' -> frame p ms l l'.
Proof. unfold tok_confidential; intro H; inv_ok. destruct i; inv_ok; frame_chain. Qed.
Lemma frame_harvest p ms m s l l' : tok_harvest p ms m s l = Ok l' -> frame p ms l l'.
Proof. unfold tok_harvest; intro H; inv_ok; frame_chain. Qed.
Lemma frame_withdraw_withheld p ms m d a s l l' : tok_withdraw_withheld p ms m d a s l = Ok l' -> frame p ms l l'.
Proof. unfold tok_withdraw_withheld; intro H; inv_ok; frame_chain. Qed.
Lemma frame_withdraw_withheld_from p ms m d a x s l l' : tok_withdraw_withheld_from p ms m d a x s l = Ok l' -> frame p ms l l'.
Proof. unfold tok_withdraw_withheld_from; intro H; inv_ok; frame_chain. Qed.
Lemma frame_withdraw_excess e p ms k d a s l l' : tok_withdraw_excess e p ms k d a s l = Ok l' -> frame p ms l l'.
Proof. unfold tok_withdraw_excess; intro H; inv_ok; frame_chain. Qed.
Lemma confidential_transfer_frame e p ms src mnt dst a s n l l' :
  tok_confidential_transfer e p ms src mnt dst a s n l = Ok l' ->
  exists m l3, unpack_mint p (a_data (l mnt)) = Ok m /\ frame p ms l l3 /\ (l' = l3 \/ run_hook e m ms n l3 = Ok l').
Proof.
  unfold tok_confidential_transfer; intro H; inv_ok.
  match goal with Hm : unpack_mint p _ = Ok ?m, Hh : run_hook e ?m ms n ?l3 = Ok _ |- _ =>
    exists m, l3; split; [exact Hm|]; split; [|right; exact Hh]; clear Hh end. frame_chain.
Qed.

(** Every token-program instruction: only writable accounts change and lamports balance.
    Apart from a transfer hook, only accounts of the program lose or change anything. *)
Lemma tok_exec_frame e p cpi ms ix l l' :
  tok_exec e p cpi ms ix l = Ok l' ->
  exists l3, frame p ms l l3 /\
    (l' = l3 \/ exists m mnt n, unpack_mint p (a_data (l mnt)) = Ok m /\ run_hook e m ms n l3 = Ok l').
Proof.
  unfold tok_exec; intro H.
  destruct ix; destruct (map i_key ms) as [|k1 [|k2 [|k3 [|k4 rest]]]]; try discriminate H; inv_ok;
    try (exists l'; split; [|left; reflexivity];
         first [ eapply frame_transfer_plain; eassumption | eapply frame_mint_to; eassumption
               | eapply frame_burn; eassumption | eapply frame_close; eassumption
               | eapply frame_init_ext; eassumption | eapply frame_init_mint; eassumption
               | eapply frame_md_initialize; eassumption | eapply frame_md_update; eassumption
               | eapply frame_md_remove; eassumption | eapply frame_init_account; eassumption
               | eapply frame_sync_native; eassumption | eapply frame_init_multisig; eassumption
               | eapply frame_approve; eassumption | eapply frame_revoke; eassumption
               | eapply frame_set_authority; eassumption | eapply frame_freeze; eassumption
               | eapply frame_update_ext; eassumption | eapply frame_update_acct_exts; eassumption
               | eapply frame_confidential; eassumption | eapply frame_harvest; eassumption
               | eapply frame_withdraw_withheld; eassumption
               | eapply frame_withdraw_withheld_from; eassumption
               | eapply frame_withdraw_excess; eassumption ]).
  all: first [apply transfer_checked_frame in H | apply confidential_transfer_frame in H]; destruct H as (m & l3 & Hm & Hf & H);
    exists l3; split; [exact Hf|]; destruct H as [H|H]; [left; exact H|right; eauto].
Qed.
Lemma tok_exec_rs e p cpi ms ix l l' :
  tok_exec e p cpi ms ix l = Ok l' -> ro_frame ms l l' /\ sum_frame ms l l'.
Proof.
  intro H. apply tok_exec_frame in H. destruct H as (l3 & (A & B & _) & [->|(m & mnt & n & _ & H)]); [auto|].
  apply run_hook_frame in H. destruct H. split; [eapply ro_trans|eapply sum_trans]; eauto.
Qed.

(** ** System program, Metaplex, unknown programs *)
Lemma sys_exec_rs ms ix l l' : sys_exec ms ix l = Ok l' -> ro_frame ms l l' /\ sum_frame ms l l'.
Proof.
  unfold sys_exec; intro H. destruct ix; destruct (map i_key ms) as [|k rest]; try discriminate.
  - inv_ok. subst. split.
    + intros k' Hk'. rewrite upd_other; [reflexivity|intro X; subst; congruence].
    + intros ks _ _. apply sum_ext. intros k' _. destruct (pk_dec k k') as [->|Hne]; [now rewrite upd_same|now rewrite upd_other].
  - destruct (pk_eqb (a_owner (l k)) owner); inv_ok; subst; [split; [apply ro_refl|apply sum_refl]|]. split.
    + intros k' Hk'. rewrite upd_other; [reflexivity|intro X; subst; congruence].
    + intros ks _ _. apply sum_ext. intros k' _. destruct (pk_dec k k') as [->|Hne]; [now rewrite upd_same|now rewrite upd_other].
Qed.
Lemma mpl_exec_rs e ms ix l l' : mpl_exec e ms ix l = Ok l' -> ro_frame ms l l' /\ sum_frame ms l l'.
Proof.
  unfold mpl_exec; intro H. destruct ix.
  - destruct (map i_key ms) as [|md [|mnt [|ma [|payer [|ua rest]]]]]; try discriminate. inv_ok. subst l'.
    match goal with H : payer <> md |- _ => rename H into Hpm end.
    match goal with H : e_mpl_cost e <= _ |- _ => rename H into Hc end.
    match goal with H : is_wr ms md = true |- _ => rename H into W1 end.
    match goal with H : is_wr ms payer = true |- _ => rename H into W2 end.
    split.
    + intros k Hk. rewrite !upd_other; [reflexivity| |]; intro X; subst; congruence.
    + intros ks Hn Hin.
      pose proof (sum_upd_in ks l payer (with_lamports (a_lamports (l payer) - e_mpl_cost e) (l payer)) Hn (Hin _ W2)) as S1.
      set (l1 := upd l payer _) in *.
      match goal with |- sum_lamports ks (upd l1 md ?a) = _ => pose proof (sum_upd_in ks l1 md a Hn (Hin _ W1)) as S2 end.
      cbn [with_lamports a_lamports] in S1, S2. lia.
  - destruct (map i_key ms) as [|md [|ua rest]]; try discriminate. inv_ok.
    destruct (a_data (l md)); try discriminate. inv_ok. apply frame_set_data in H. destruct H as (A & B & _). auto.
Qed.
Lemma external_exec_rs e p ms l l' : external_exec e p ms l = Ok l' -> ro_frame ms l l' /\ sum_frame ms l l'.
Proof. unfold external_exec; intro H; inv_ok; subst. now apply confine_frame. Qed.
Lemma exec_program_rs e p ms b l l' : exec_program e p ms b l = Ok l' -> ro_frame ms l l' /\ sum_frame ms l l'.
Proof.
  unfold exec_program; intro H.
  destruct (pk_eqb p system_id). { destruct b; try discriminate. eapply sys_exec_rs; eauto. }
  destruct (pk_eqb p spl_token_id || pk_eqb p t22_id). { destruct b; try discriminate. eapply tok_exec_rs; eauto. }
  destruct (pk_eqb p mpl_id). { destruct b; try discriminate. eapply mpl_exec_rs; eauto. }
  eapply external_exec_rs; eauto.
Qed.

(** ** Cross-program invocation: privileges only shrink. *)
Lemma invoke_signed_inv e c borrowed ix passed seeds l l' :
  invoke_signed e c borrowed ix passed seeds l = Ok l' ->
  exec_program e (ix_prog ix) (ix_metas ix) (ix_body ix) l = Ok l' /\
  (forall m, In m (ix_metas ix) -> i_writable m = true -> is_wr (c_infos c) (i_key m) = true) /\
  (exists pdas, map_res (fun s => create_program_address e s (c_prog c)) seeds = Ok pdas /\
     forall m, In m (ix_metas ix) -> i_signer m = true -> is_sig (c_infos c) (i_key m) = true \/ In (i_key m) pdas) /\
  has_key (c_infos c) (ix_prog ix) = true /\
  (forall m, In m (ix_metas ix) -> i_writable m = true -> In (i_key m) borrowed -> In (i_key m) passed -> False) /\
  (forall m, In m (ix_metas ix) -> In (i_key m) passed /\ has_key (c_infos c) (i_key m) = true).
Proof.
  unfold invoke_signed; intro H.
  apply bind_ok in H; destruct H as [? [Hb H]]. apply guard_ok in Hb. rewrite forallb_forall in Hb.
  apply bind_ok in H; destruct H as [pdas [Hp H]].
  apply bind_ok in H; destruct H as [? [Hk H]]. apply guard_ok in Hk.
  apply bind_ok in H; destruct H as [? [Hm H]]. apply guard_ok in Hm. rewrite forallb_forall in Hm.
  apply bind_ok in H; destruct H as [? [Hw H]]. apply guard_ok in Hw. rewrite forallb_forall in Hw.
  apply bind_ok in H; destruct H as [? [Hs H]]. apply guard_ok in Hs. rewrite forallb_forall in Hs.
  split; [exact H|]. split; [|split; [|split; [exact Hk|split]]].
  - intros m Hm1 Hm2. specialize (Hw m Hm1). rewrite Hm2 in Hw. exact Hw.
  - exists pdas. split; [exact Hp|]. intros m Hm1 Hm2. specialize (Hs m Hm1). rewrite Hm2 in Hs.
    cbn [negb orb] in Hs. apply orb_true_iff in Hs. rewrite pk_mem_In in Hs. exact Hs.
  - intros m Hm1 Hm2 Hm3 Hm4. specialize (Hb m Hm1). rewrite Hm2 in Hb.
    apply pk_mem_In in Hm3, Hm4. rewrite Hm3, Hm4 in Hb. discriminate.
  - intros m Hm1. specialize (Hm m Hm1). apply andb_true_iff in Hm. rewrite pk_mem_In in Hm. exact Hm.
Qed.
Lemma is_wr_sub ms ms' : (forall m, In m ms -> i_writable m = true -> is_wr ms' (i_key m) = true) ->
  forall k, is_wr ms k = true -> is_wr ms' k = true.
Proof. intros H k Hk. apply is_wr_In in Hk. destruct Hk as (m & Hm & <- & Hw). auto. Qed.
Lemma ro_sub ms ms' l l' : (forall k, is_wr ms k = true -> is_wr ms' k = true) -> ro_frame ms l l' -> ro_frame ms' l l'.
Proof.
  intros H Hr k Hk. apply Hr. destruct (is_wr ms k) eqn:E; [|reflexivity]. apply H in E. congruence.
Qed.
Lemma sum_sub ms ms' l l' : (forall k, is_wr ms k = true -> is_wr ms' k = true) -> sum_frame ms l l' -> sum_frame ms' l l'.
Proof. intros H Hs ks Hn Hin. apply Hs; auto. Qed.
Lemma invoke_signed_rs e c borrowed ix passed seeds l l' :
  invoke_signed e c borrowed ix passed seeds l = Ok l' -> ro_frame (c_infos c) l l' /\ sum_frame (c_infos c) l l'.
Proof.
  intro H. apply invoke_signed_inv in H. destruct H as (H & Hw & _). apply exec_program_rs in H. destruct H as [A B].
  pose proof (is_wr_sub _ _ Hw). split; [eapply ro_sub|eapply sum_sub]; eauto.
Qed.
