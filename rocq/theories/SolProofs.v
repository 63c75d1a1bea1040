(** * SolProofs.v — wrapped SOL: a native token account always holds at least the lamports its token
    balance (plus the rent reserve) stands for. *)
From Verif Require Import Base Codec State Pda TokenProg Cpi Ata Meta Processor Tac PdaProofs TokProofs FrameProofs ProcProofs
  Spec SpecLemmas WrapProofs CreateProofs MapProofs SyncProofs SyncProofs2 CloseProofs InvTok InvCons HistorySpec InvState InvTw InvHist EscProofs.

Definition sol_data (d : data) (n : N) : Prop := forall t r, d = DTok t -> t_native t = Some r -> t_amount t + r <= n.
Definition sol_acct (a : account) : Prop := sol_data (a_data a) (a_lamports a).
Definition Sol (l : ledger) : Prop := forall k, token_program (a_owner (l k)) -> sol_acct (l k).
(** What the invariant gives: native accounts are those of the wrapped-SOL mint, which has no extensions. *)
Definition natives (p : pubkey) (l : ledger) : Prop :=
  natives_fine p l /\
  forall k t m, a_owner (l k) = p -> a_data (l k) = DTok t -> t_native t <> None -> a_data (l (t_mint t)) = DMint m -> m_exts m = [].
Definition solids (p : pubkey) (l l' : ledger) : Prop := token_program p -> natives p l -> Sol l -> Sol l'.
Lemma inv_natives e0 l p : Inv e0 l -> token_program p -> natives p l.
Proof.
  intros I T. split; [exact (inv_natives_fine _ _ _ I T)|]. intros k t m O D N Dm.
  pose proof (inv_natives_fine _ _ _ I T k t O D) as [F _]. specialize (F N). unfold is_native_mint in F. apply pk_eqb_eq in F.
  destruct T as [->| ->]; cbn in F; rewrite F in Dm.
  - destruct (inv_sol _ _ I) as [_ Q]. rewrite Q in Dm. inversion Dm; subst. reflexivity.
  - pose proof (inv_native _ _ I k t O D F) as Q. destruct (inv_acct _ _ I native_mint_2022_id) as (_ & _ & B). rewrite (B eq_refl Q) in Dm.
    inversion Dm; subst. reflexivity.
Qed.

(** A later state of an account that owes no more than before. *)
Definition meek (d d' : data) : Prop :=
  forall t' r, d' = DTok t' -> t_native t' = Some r -> exists t, d = DTok t /\ t_native t = Some r /\ t_amount t' <= t_amount t.
Lemma meek_sol d d' n n' : meek d d' -> n <= n' -> sol_data d n -> sol_data d' n'.
Proof. intros M L S t' r E N. destruct (M t' r E N) as (t & E1 & N1 & A). specialize (S t r E1 N1). lia. Qed.
Lemma meek_refl d : meek d d.
Proof. intros t r E N. exists t. split; [exact E|]. split; [exact N|lia]. Qed.
Lemma meek_tok t t' : t_native t' = t_native t -> t_amount t' <= t_amount t -> meek (DTok t) (DTok t').
Proof. intros N A x r E Nx. inversion E; subst. exists t. split; [reflexivity|]. split; [congruence|exact A]. Qed.
Lemma meek_none d t' : t_native t' = None -> meek d (DTok t').
Proof. intros N x r E Nx. inversion E; subst. congruence. Qed.
Lemma meek_other d d' : (forall t, d' <> DTok t) -> meek d d'.
Proof. intros N x r E. destruct (N x E). Qed.

Lemma sol_same l l' : (forall k, same_do (l k) (l' k) /\ a_lamports (l k) <= a_lamports (l' k)) -> Sol l -> Sol l'.
Proof.
  intros H S k T. destruct (H k) as [[D O] L]. rewrite O in T. specialize (S k T). unfold sol_acct in *. rewrite D. intros t r E N.
  specialize (S t r E N). lia.
Qed.
Lemma solids_same p l l' : (forall k, same_do (l k) (l' k) /\ a_lamports (l k) <= a_lamports (l' k)) -> solids p l l'.
Proof. intros H _ _. apply sol_same. exact H. Qed.
Lemma solids_refl p l : solids p l l.
Proof. intros _ _ S. exact S. Qed.
Lemma solids_one p ms k d l l' :
  set_data p ms k d l = Ok l' -> (natives p l -> a_owner (l k) = p -> sol_acct (l k) -> sol_data d (a_lamports (l k))) -> solids p l l'.
Proof.
  intros H G T F S k' T'. apply set_data_inv in H. destruct H as (_ & O & ->). destruct (pk_dec k k') as [<-|N].
  - rewrite upd_same. unfold sol_acct. cbn [a_data a_lamports with_data]. apply (G F O). apply S. rewrite O. exact T.
  - rewrite upd_other in * by exact N. exact (S k' T').
Qed.
Lemma solids_meek p ms k d l l' : set_data p ms k d l = Ok l' -> meek (a_data (l k)) d -> solids p l l'.
Proof. intros H M. apply (solids_one _ _ _ _ _ _ H). intros _ _ S. apply (meek_sol _ _ _ _ M (N.le_refl _) S). Qed.
Lemma solids_two p ms k1 d1 k2 d2 l l1 l2 :
  k1 <> k2 -> set_data p ms k1 d1 l = Ok l1 -> set_data p ms k2 d2 l1 = Ok l2 ->
  (natives p l -> a_owner (l k1) = p -> a_owner (l k2) = p -> meek (a_data (l k1)) d1 /\ meek (a_data (l k2)) d2) -> solids p l l2.
Proof.
  intros Hne H1 H2 G T F S k' T'. apply set_data_inv in H1. destruct H1 as (_ & O1 & ->). apply set_data_inv in H2. destruct H2 as (_ & O2 & ->).
  rewrite upd_other in O2 by exact Hne. destruct (G F O1 O2) as [G1 G2]. destruct (pk_dec k2 k') as [<-|N2].
  - rewrite upd_same. rewrite upd_other by exact Hne. unfold sol_acct. cbn [a_data a_lamports with_data].
    apply (meek_sol _ _ _ _ G2 (N.le_refl _)). apply S. rewrite O2. exact T.
  - rewrite upd_other in * by exact N2. destruct (pk_dec k1 k') as [<-|N1].
    + rewrite upd_same. unfold sol_acct. cbn [a_data a_lamports with_data]. apply (meek_sol _ _ _ _ G1 (N.le_refl _)). apply S. rewrite O1. exact T.
    + rewrite upd_other in * by exact N1. exact (S k' T').
Qed.
(** Lamports taken from an account that is not native, or is deleted afterwards. *)
Lemma sol_move p ms a b n l l1 :
  move_lamports p ms a b n l = Ok l1 ->
  forall k, same_do (l k) (l1 k) /\ (k <> a -> a_lamports (l k) <= a_lamports (l1 k)).
Proof.
  intros H k. split; [exact (move_lamports_same _ _ _ _ _ _ _ H k)|]. intro N. apply move_lamports_inv in H. destruct H as (_ & _ & _ & _ & ->). cbv zeta.
  destruct (pk_dec b k) as [<-|Nb]; [rewrite upd_same|rewrite upd_other by exact Nb]; cbn [a_lamports with_lamports]; rewrite ?(upd_other l a) by congruence; lia.
Qed.
Lemma solids_close p ms acc dst n l l1 l2 : move_lamports p ms acc dst n l = Ok l1 -> delete_account p ms acc l1 = Ok l2 -> solids p l l2.
Proof.
  intros H1 H2 T F S k T'. pose proof (sol_move _ _ _ _ _ _ _ H1 k) as [[D O] L]. apply delete_account_inv in H2. destruct H2 as (_ & _ & ->).
  destruct (pk_dec acc k) as [<-|N].
  - rewrite upd_same in T'. cbn in T'. exfalso. exact (token_not_system _ T' eq_refl).
  - rewrite upd_other in * by exact N. rewrite O in T'. unfold sol_acct. rewrite D. apply (meek_sol (a_data (l k)) _ (a_lamports (l k))); [apply meek_refl|apply L; congruence|].
    exact (S k T').
Qed.

(** Transfers *)
Lemma solids_transfer p ms l src dst s s1 d d1 amount got l3 :
  src <> dst -> a_data (l src) = DTok s -> a_data (l dst) = DTok d -> t_mint d = t_mint s ->
  t_amount s1 = t_amount s -> t_native s1 = t_native s -> amount <= t_amount s -> got <= amount ->
  t_amount d1 = t_amount d + got -> t_native d1 = t_native d -> a_owner (l src) = p -> a_owner (l dst) = p ->
  move_native p ms s src dst amount (upd (upd l src (with_data (DTok (set_amount (t_amount s1 - amount) s1)) (l src))) dst (with_data (DTok d1) (l dst))) = Ok l3 ->
  solids p l l3.
Proof.
  intros Hne Ds Dd Md A1 N1 Ha Hg A2 N2 Os Od H T [F _] S k T'. unfold move_native in H.
  assert (NN : t_native s = None -> t_native d = None).
  { intro Q. destruct (t_native d) eqn:E; [|reflexivity]. exfalso. destruct (F dst d Od Dd) as [F1 _]. rewrite Md in F1.
    destruct (F src s Os Ds) as [_ F2]. apply F2; [apply F1; congruence|exact Q]. }
  assert (Ss : sol_acct (l src)) by (apply S; rewrite Os; exact T). assert (Sd : sol_acct (l dst)) by (apply S; rewrite Od; exact T).
  unfold sol_acct in *. rewrite Ds in Ss. rewrite Dd in Sd.
  destruct (t_native s) as [r|] eqn:Ns.
  - apply move_lamports_inv in H. destruct H as (_ & _ & _ & Hle & ->). cbv zeta in *.
    rewrite upd_other in Hle by congruence. rewrite upd_same in Hle. cbn [a_lamports with_data] in Hle.
    destruct (pk_dec dst k) as [<-|Nd].
    + rewrite !upd_same. rewrite (upd_other _ src) by exact Hne. rewrite upd_same. cbn [a_data a_lamports with_lamports with_data].
      intros t rr E Nr. inversion E; subst t. rewrite A2. rewrite N2 in Nr. specialize (Sd d rr eq_refl Nr). lia.
    + rewrite (upd_other _ dst _ k) in * by exact Nd. destruct (pk_dec src k) as [<-|Nsk].
      * rewrite upd_same. rewrite upd_other by congruence. rewrite upd_same. cbn [a_data a_lamports with_lamports with_data].
        intros t rr E Nr. inversion E; subst t. cbn [t_amount t_native set_amount] in *. rewrite A1. rewrite N1 in Nr. specialize (Ss s rr eq_refl). rewrite Ns in Ss. specialize (Ss Nr). lia.
      * rewrite !upd_other in * by congruence. exact (S k T').
  - inversion H; subst l3. destruct (pk_dec dst k) as [<-|Nd].
    + rewrite upd_same. cbn [a_data a_lamports with_data]. intros t rr E Nr. inversion E; subst t. rewrite N2, (NN eq_refl) in Nr. discriminate.
    + rewrite (upd_other _ dst _ k) in * by exact Nd. destruct (pk_dec src k) as [<-|Nsk].
      * rewrite upd_same. cbn [a_data a_lamports with_data]. intros t rr E Nr. inversion E; subst t. cbn in Nr. rewrite N1 in Nr. discriminate.
      * rewrite upd_other in * by exact Nsk. exact (S k T').
Qed.
Lemma solids_transfer_ledger p ms l src dst s s1 d dx amount fee l3 :
  src <> dst -> a_data (l src) = DTok s -> a_data (l dst) = DTok d -> t_mint d = t_mint s ->
  t_amount s1 = t_amount s -> t_native s1 = t_native s -> amount <= t_amount s -> a_owner (l src) = p -> a_owner (l dst) = p ->
  move_native p ms s src dst amount (transfer_ledger l src dst s1 d dx amount fee) = Ok l3 -> solids p l l3.
Proof.
  intros Hne Ds Dd Md A1 N1 Ha Os Od H. unfold transfer_ledger in H. cbv zeta in H. rewrite (upd_other l src _ dst) in H by exact Hne.
  eapply (solids_transfer p ms l src dst s s1 d _ amount (amount - fee) l3 Hne Ds Dd Md A1 N1 Ha); [lia| | | | |exact H]; auto.
Qed.
Lemma solids_transfer_checked e p cpi ms src mnt dst auth signers amount dec expfee l l' :
  tok_transfer_checked e p cpi ms src mnt dst auth signers amount dec expfee l = Ok l' ->
  exists m l3, unpack_mint p (a_data (l mnt)) = Ok m /\ changes p ms l l3 /\ conserves p l l3 /\ solids p l l3 /\ (l' = l3 \/ run_hook e m ms amount l3 = Ok l').
Proof.
  intro H0. pose proof H0 as H. apply transfer_checked_inv in H.
  destruct H as (s & m & fee & s1 & Hs & _ & Hamt & Hsm & Hm & _ & _ & _ & _ & Ha & O1 & O2 & H).
  destruct H as [[_ ->]|(Hne & d & dx & l3 & Hd & _ & Hdm & _ & Hfe & _ & Hdx & W1 & W2 & Hn & Hh)].
  - exists m, l. split; [exact Hm|]. split; [apply changes_refl|]. split; [|split; [apply solids_refl|auto]]. apply conserves_same. intro; split; reflexivity.
  - exists m, l3. split; [exact Hm|].
    pose proof (authorize_debit_fields _ _ _ _ _ _ _ _ _ _ _ Ha) as (F1 & F2 & F3 & F4 & F5 & F6 & F7).
    pose proof (unpack_tok_inv _ _ _ Hs) as (Ds & _ & Xs). pose proof (unpack_tok_inv _ _ _ Hd) as (Dd & _ & Xd).
    split; [|split; [|split; [|auto]]].
    + eapply changes_same; [|eapply move_native_same; exact Hn].
      unfold transfer_ledger. cbv zeta. rewrite (upd_other l src _ dst) by exact Hne.
      eapply (changes_two p ms l _ _ src (DTok (set_amount (t_amount s1 - amount) s1)) dst (DTok (set_texts dx (set_amount (t_amount d + (amount - fee)) d))) Hne).
      * apply set_data_ok; auto.
      * rewrite set_data_ok; auto; rewrite (upd_other l src _ dst) by exact Hne; auto.
      * rewrite Ds. rewrite (proj2 (pk_eqb_neq src dst) Hne) in Ha. eapply ch_debit; eauto.
      * rewrite Dd. apply ch_credit; auto; [|lia| |destruct (fee =? 0); [now subst|exact (settings_add _ _ _ Hdx)]].
        { destruct (fee =? 0); [now subst|]. eapply add_withheld_types'; eauto. }
        destruct (fee =? 0); [subst; apply N.le_refl|]. destruct (withheld_add_of _ _ _ Hdx) as [_ ->]. apply N.le_refl.
    + eapply (conserves_transfer_ledger p ms l src dst s s1 d dx amount fee); auto; [congruence|].
      eapply move_native_same; exact Hn.
    + eapply (solids_transfer_ledger p ms l src dst s s1 d dx amount fee l3 Hne Ds Dd); auto; congruence.
Qed.
Lemma solids_transfer_plain e p cpi ms src dst auth signers amount l l' :
  tok_transfer_plain e p cpi ms src dst auth signers amount l = Ok l' -> solids p l l'.
Proof.
  intro H. apply transfer_plain_inv in H.
  destruct H as (s & s1 & Hs & _ & Hamt & Ha & O1 & O2 & H).
  destruct H as [[_ ->]|(Hne & d & Hd & _ & Hdm & W1 & W2 & _ & Hn)]; [apply solids_refl|].
  pose proof (authorize_debit_fields _ _ _ _ _ _ _ _ _ _ _ Ha) as (F1 & F2 & F3 & F4 & F5 & F6 & F7).
  pose proof (unpack_tok_inv _ _ _ Hs) as (Ds & _ & Xs). pose proof (unpack_tok_inv _ _ _ Hd) as (Dd & _ & Xd).
  cbv zeta in Hn. rewrite (upd_other l src _ dst) in Hn by exact Hne.
  eapply (solids_transfer p ms l src dst s s1 d (set_amount (t_amount d + amount) d) amount amount l' Hne Ds Dd Hdm F3 F5 Hamt); auto; lia.
Qed.
Lemma solids_mint_to p ms mnt dst auth signers amount l l' : tok_mint_to p ms mnt dst auth signers amount l = Ok l' -> solids p l l'.
Proof.
  intro H. apply mint_to_inv in H.
  destruct H as (d & m & Hd & _ & Hna & Hdm & Hm & Hau & Hsg & _ & Hov & O1 & O2 & Hne & W1 & W2 & ->).
  assert (Hne' : dst <> mnt) by congruence.
  eapply (solids_two p ms dst (DTok (set_amount (t_amount d + amount) d)) mnt (DMint (set_supply (m_supply m + amount) m)) l
            (upd l dst (with_data (DTok (set_amount (t_amount d + amount) d)) (l dst))) _ Hne').
  - apply set_data_ok; auto.
  - rewrite set_data_ok; auto; rewrite (upd_other l dst _ mnt) by exact Hne'; auto.
  - intros _ _ _. split; [apply meek_none; exact Hna|apply meek_other; discriminate].
Qed.
Lemma solids_burn p cpi ms src mnt auth signers amount l l' : tok_burn p cpi ms src mnt auth signers amount l = Ok l' -> solids p l l'.
Proof.
  intro H. apply burn_inv in H.
  destruct H as (s & m & s1 & Hs & Hm & _ & _ & Hamt & Hsm & Hc & Hov & O1 & O2 & Hne & W1 & W2 & ->).
  pose proof (unpack_tok_inv _ _ _ Hs) as (Ds & _ & Xs). pose proof (unpack_mint_inv _ _ _ Hm) as (Dm & Im & _).
  assert (Hne' : src <> mnt) by congruence.
  assert (F : t_native s1 = t_native s /\ t_amount s1 = t_amount s).
  { destruct Hc as [[_ ->]|(_ & _ & Ha)]; [auto|]. apply authorize_debit_fields in Ha. tauto. }
  destruct F as (F1 & F2).
  eapply (solids_two p ms src (DTok (set_amount (t_amount s1 - amount) s1)) mnt (DMint (set_supply (m_supply m - amount) m)) l
            (upd l src (with_data (DTok (set_amount (t_amount s1 - amount) s1)) (l src))) _ Hne').
  - apply set_data_ok; auto.
  - rewrite set_data_ok; auto; rewrite (upd_other l src _ mnt) by exact Hne'; auto.
  - intros _ _ _. split; [rewrite Ds; apply meek_tok; cbn; [exact F1|lia]|apply meek_other; discriminate].
Qed.
Lemma solids_tok_close p cpi ms acc dst auth signers l l' : tok_close p cpi ms acc dst auth signers l = Ok l' -> solids p l l'.
Proof.
  unfold tok_close; intros H. apply bind_ok in H; destruct H as [? [_ H]].
  destruct (a_data (l acc)) eqn:D; try discriminate; cbv zeta in H;
  repeat match goal with H : bind _ _ = Ok _ |- _ => apply bind_ok in H; let a := fresh "a" in let E := fresh "E" in destruct H as (a & E & H) end;
  eapply solids_close; eassumption.
Qed.
Ltac mintside H := eapply solids_meek; [exact H|apply meek_other; discriminate].
Lemma solids_init_ext p ms k x l l' : tok_init_ext p ms k x l = Ok l' -> solids p l l'.
Proof. unfold tok_init_ext; intro H; inv_ok. mintside H. Qed.
Lemma solids_init_mint e p ms k dec auth frz l l' : tok_init_mint e p ms k dec auth frz l = Ok l' -> solids p l l'.
Proof. unfold tok_init_mint; intro H; inv_ok. mintside H. Qed.
Lemma solids_write_exts e p ms k m x l l' : write_mint_exts e p ms k m x l = Ok l' -> solids p l l'.
Proof. unfold write_mint_exts. intros H. inv_ok. mintside H. Qed.
Lemma solids_md_initialize e p ms md ua mnt ma n s u l l' : tok_md_initialize e p ms md ua mnt ma n s u l = Ok l' -> solids p l l'.
Proof. unfold tok_md_initialize; intro H; inv_ok. eapply solids_write_exts; exact H. Qed.
Lemma solids_md_update e p ms md ua f v l l' : tok_md_update e p ms md ua f v l = Ok l' -> solids p l l'.
Proof. unfold tok_md_update; intro H. apply bind_ok in H; destruct H as [[m t] [Ha H]]. eapply solids_write_exts; exact H. Qed.
Lemma solids_md_remove e p ms md ua k i l l' : tok_md_remove e p ms md ua k i l = Ok l' -> solids p l l'.
Proof.
  unfold tok_md_remove; intro H. apply bind_ok in H; destruct H as [[m t] [Ha H]]. apply bind_ok in H; destruct H as [[] [_ H]].
  eapply solids_write_exts; exact H.
Qed.
Lemma solids_init_account e p ms k mnt owner imm l l' : tok_init_account e p ms k mnt owner imm l = Ok l' -> solids p l l'.
Proof.
  unfold tok_init_account; intro H.
  apply bind_ok in H; destruct H as [m [Hm H]]. apply bind_ok in H; destruct H as [[] [Ho H]]. cbv zeta in H.
  apply bind_ok in H; destruct H as [[] [Hz H]]. apply bind_ok in H; destruct H as [[] [Hr H]]. apply guard_ok, N.leb_le in Hr.
  eapply solids_one; [exact H|]. intros _ _ _ t r E N. inversion E; subst t. clear E. cbn [t_native t_amount] in *.
  destruct (is_native_mint p mnt); [|discriminate]. inversion N; subst r. lia.
Qed.
Lemma solids_sync_native p ms k l l' : tok_sync_native p ms k l = Ok l' -> solids p l l'.
Proof.
  unfold tok_sync_native; intro H. apply bind_ok in H; destruct H as [t [Ht H]]. apply bind_ok in H; destruct H as [r [Hr H]]. apply of_option_ok in Hr.
  apply bind_ok in H; destruct H as [[] [Hg H]]. apply guard_ok, andb_true_iff in Hg. destruct Hg as [Hg _]. apply N.leb_le in Hg.
  eapply solids_one; [exact H|]. intros _ _ _ t' r' E N. inversion E; subst t'. cbn in *. rewrite Hr in N. inversion N; subst r'. lia.
Qed.
Lemma solids_init_multisig p ms k m l l' : tok_init_multisig p ms k m l = Ok l' -> solids p l l'.
Proof. unfold tok_init_multisig; intro H; inv_ok. mintside H. Qed.
Ltac tok_meek H D := eapply solids_meek; [exact H|]; rewrite D; apply meek_tok; [reflexivity|cbn; lia].
Lemma solids_approve p ms cpi k d a s n l l' : tok_approve p ms cpi k d a s n l = Ok l' -> solids p l l'.
Proof. unfold tok_approve; intro H; inv_ok. apply unpack_tok_inv in E. destruct E as (D & _ & X). tok_meek H D. Qed.
Lemma solids_revoke p ms k a s l l' : tok_revoke p ms k a s l = Ok l' -> solids p l l'.
Proof. unfold tok_revoke; intro H; inv_ok. apply unpack_tok_inv in E. destruct E as (D & _ & X). tok_meek H D. Qed.
Lemma solids_set_authority p ms cpi k a s ty new l l' : tok_set_authority p ms cpi k a s ty new l = Ok l' -> solids p l l'.
Proof.
  unfold tok_set_authority; intro H. destruct (a_data (l k)) eqn:D; try discriminate.
  - apply bind_ok in H; destruct H as [m' [Hm H]]. destruct ty; try discriminate; inv_ok; mintside H.
  - apply bind_ok in H; destruct H as [t' [Ht H]]. apply unpack_tok_inv in Ht. destruct Ht as (Y & _ & X). inversion Y; subst t'.
    apply bind_ok in H; destruct H as [[] [_ H]].
    destruct ty; try discriminate; inv_ok; (eapply solids_meek; [exact H|]; rewrite D; apply meek_tok);
      try reflexivity; try (cbn; lia); destruct (t_native t) eqn:E'; cbn; try exact E'; try lia.
Qed.
Lemma solids_freeze p ms k mnt a s f l l' : tok_freeze p ms k mnt a s f l = Ok l' -> solids p l l'.
Proof. unfold tok_freeze; intro H; inv_ok. apply unpack_tok_inv in E. destruct E as (D & _ & X). tok_meek H D. Qed.
Lemma solids_update_ext e p ms k a s x l l' : tok_update_ext e p ms k a s x l = Ok l' -> solids p l l'.
Proof. unfold tok_update_ext; intro H; inv_ok. eapply solids_write_exts; exact H. Qed.
Lemma solids_update_acct_exts p ms k a s x l l' : tok_update_acct_exts p ms k a s x l = Ok l' -> solids p l l'.
Proof.
  unfold tok_update_acct_exts; intro H; inv_ok. match goal with H : unpack_tok _ _ = Ok _ |- _ => apply unpack_tok_inv in H; destruct H as (D & I1 & X) end.
  tok_meek H D.
Qed.
(** Extensions are out of the question for native accounts. *)
Lemma native_no_exts p l k t m : natives p l -> a_owner (l k) = p -> a_data (l k) = DTok t -> a_data (l (t_mint t)) = DMint m -> m_exts m <> [] -> t_native t = None.
Proof. intros [_ F] O D Dm N. destruct (t_native t) eqn:E; [|reflexivity]. exfalso. apply N. apply (F k t m O D); [congruence|exact Dm]. Qed.
Lemma confidential_exts m : ext_confidential m = true -> m_exts m <> [].
Proof. intros H Q. unfold ext_confidential in H. rewrite Q in H. discriminate. Qed.
Lemma fee_exts m c : ext_fee m = Some c -> m_exts m <> [].
Proof. intros H Q. unfold ext_fee in H. rewrite Q in H. discriminate. Qed.
Lemma solids_confidential p ms k mnt a s i n l l' : tok_confidential p ms k mnt a s i n l = Ok l' -> solids p l l'.
Proof.
  unfold tok_confidential; intro H; inv_ok. match goal with H : unpack_tok _ _ = Ok ?t |- _ => apply unpack_tok_inv in H; destruct H as (D & I1 & X); rename t into ts end.
  match goal with H : unpack_mint _ _ = Ok ?m |- _ => apply unpack_mint_inv in H; destruct H as (Dm & _); rename m into mm end.
  assert (EX : m_exts mm <> []) by (apply confidential_exts; assumption).
  assert (Em : t_mint ts = mnt) by assumption. rewrite <- Em in Dm.
  destruct i; inv_ok; (eapply solids_one; [exact H|]; intros F O _ t r E' N; exfalso; inversion E'; subst t; cbn in N;
    rewrite (native_no_exts _ _ _ _ _ F O D Dm EX) in N; discriminate).
Qed.
Lemma solids_confidential_transfer e p ms src mnt dst a s n l l' :
  tok_confidential_transfer e p ms src mnt dst a s n l = Ok l' ->
  exists m l3, unpack_mint p (a_data (l mnt)) = Ok m /\ changes p ms l l3 /\ conserves p l l3 /\ solids p l l3 /\ (l' = l3 \/ run_hook e m ms n l3 = Ok l').
Proof.
  unfold tok_confidential_transfer; intro H; inv_ok.
  match goal with Hs : unpack_tok _ (a_data (l src)) = Ok ?t, Hd : unpack_tok _ (a_data (l dst)) = Ok ?d, Hm : unpack_mint _ _ = Ok ?m |- _ =>
    apply unpack_tok_inv in Hs; destruct Hs as (Ds & _ & Xs); apply unpack_tok_inv in Hd; destruct Hd as (Dd & _ & Xd);
    exists m; eexists; split; [exact Hm|]; split; [|split; [|split; [|right; exact H]]]; rename t into ts; rename d into td end.
  - match goal with H : validate_owner _ _ _ _ _ _ = _ |- _ => apply validate_owner_inv in H; destruct H as [? ?] end.
    eapply changes_two; eauto.
    + rewrite Ds. apply ch_owner; auto. left; cbn; apply set_confidential_types.
    + rewrite Dd. eapply ch_tok; try reflexivity; auto; [apply state_kept_calm; [reflexivity| |apply settings_conf|apply N.le_refl|apply N.le_refl]|]; [cbn [t_exts set_texts]; match goal with H : conf_payload (t_exts ?d) = Some ?c |- confidential_of (t_exts ?d) <= _ => destruct (set_confidential_of (c + n) _ _ H) as [_ SCV]; lia end|]. apply tc_harmless; cbn; auto; [left; reflexivity|lia|apply set_confidential_types].
  - eapply conserves_two; eauto. intro v. rewrite Ds, Dd. cbn [data_val data_cap t_mint set_texts].
    match goal with H : conf_payload (t_exts ts) = Some ?c, H' : conf_payload (t_exts td) = Some ?c' |- _ =>
      destruct (set_confidential_of (c - n) _ _ H) as [A1 A2]; destruct (set_confidential_of (c' + n) _ _ H') as [B1 B2] end.
    unfold tok_val; cbn. rewrite A1, B1.
    repeat match goal with H : t_mint _ = mnt |- _ => rewrite H; clear H end. destruct (pk_eqb mnt v); lia.
  - eapply solids_two; eauto. intros _ _ _. rewrite Ds, Dd. split; apply meek_tok; try reflexivity; cbn; lia.
Qed.
Lemma solids_harvest p ms m s l l' : tok_harvest p ms m s l = Ok l' -> solids p l l'.
Proof.
  unfold tok_harvest; intro H; inv_ok.
  match goal with Hs : unpack_tok _ _ = Ok ?t, Hm : unpack_mint _ _ = Ok ?mm |- _ => rename t into ts; rename mm into mi;
    apply unpack_tok_inv in Hs; destruct Hs as (Ds & _ & Xs); apply unpack_mint_inv in Hm; destruct Hm as (Dm & Im & _) end.
  assert (Hne : s <> m) by (intro; subst; congruence).
  eapply solids_two; [exact Hne|eassumption|eassumption|]. intros _ _ _. rewrite Ds. split; [apply meek_tok; [reflexivity|cbn; lia]|apply meek_other; discriminate].
Qed.
Lemma solids_withdraw_withheld p ms m d a s l l' : tok_withdraw_withheld p ms m d a s l = Ok l' -> solids p l l'.
Proof.
  unfold tok_withdraw_withheld; intro H; inv_ok.
  match goal with Hs : unpack_tok _ _ = Ok ?t, Hm : unpack_mint _ _ = Ok ?mm |- _ => rename t into ts; rename mm into mi;
    apply unpack_tok_inv in Hs; destruct Hs as (Ds & _ & Xs); apply unpack_mint_inv in Hm; destruct Hm as (Dm & Im & _) end.
  assert (Hne : d <> m) by (intro; subst; congruence).
  assert (EX : m_exts mi <> []) by (eapply fee_exts; eassumption).
  assert (Em : t_mint ts = m) by assumption. rewrite <- Em in Dm.
  eapply solids_two; [exact Hne|eassumption|eassumption|]. intros F O1 O2. split; [|apply meek_other; discriminate].
  apply meek_none. cbn. exact (native_no_exts _ _ _ _ _ F O1 Ds Dm EX).
Qed.
Lemma solids_withdraw_withheld_from p ms m d a x s l l' : tok_withdraw_withheld_from p ms m d a x s l = Ok l' -> solids p l l'.
Proof.
  unfold tok_withdraw_withheld_from; intro H; inv_ok.
  match goal with Hs : unpack_tok _ (a_data (l x)) = Ok ?t, Hd : unpack_tok _ (a_data (_ d)) = Ok ?t' |- _ => rename t into ts; rename t' into td;
    apply unpack_tok_inv in Hs; destruct Hs as (Ds & _ & Xs); apply unpack_tok_inv in Hd; destruct Hd as (Dd & _ & Xd) end.
  match goal with Hm : unpack_mint _ _ = Ok ?mm |- _ => rename mm into mi; apply unpack_mint_inv in Hm; destruct Hm as (Dm & Im & _) end.
  match goal with H1 : set_data _ _ x _ _ = Ok _ |- _ => pose proof H1 as H1'; apply set_data_inv in H1'; destruct H1' as (W1 & O1 & El) end.
  assert (EX : m_exts mi <> []) by (eapply fee_exts; eassumption).
  repeat match goal with H : t_mint _ = m |- _ => revert H end. intros M1 M2.
  assert (Mts : t_mint ts = m) by assumption. assert (Mtd : t_mint td = m) by assumption.
  destruct (pk_dec x d) as [<-|Hne].
  - pose proof H as H'. apply set_data_inv in H'. destruct H' as (W2 & O2 & ->). rewrite El, upd_same in Dd. cbn [a_data with_data] in Dd.
    intros T F S k T'. assert (Nt : t_native ts = None).
    { rewrite <- Mts in Dm. exact (native_no_exts _ _ _ _ _ F O1 Ds Dm EX). }
    inversion Dd; subst td. rewrite El in *. destruct (pk_dec x k) as [<-|Nk].
    + rewrite upd_same. unfold sol_acct. cbn [a_data a_lamports with_data]. intros t r E' N. inversion E'; subst t. cbn in N. congruence.
    + rewrite !upd_other in * by exact Nk. exact (S k T').
  - rewrite El, upd_other in Dd by exact Hne. eapply solids_two; [exact Hne|eassumption|eassumption|]. intros F Q1 Q2.
    split; [rewrite Ds; apply meek_tok; [reflexivity|cbn; lia]|]. apply meek_none. cbn. rewrite <- Mtd in Dm. exact (native_no_exts _ _ _ _ _ F Q2 Dd Dm EX).
Qed.
Lemma solids_withdraw_excess e p ms k d a s l l' : tok_withdraw_excess e p ms k d a s l = Ok l' -> solids p l l'.
Proof.
  unfold tok_withdraw_excess; intro H. apply bind_ok in H; destruct H as [? [_ H]]. apply bind_ok in H; destruct H as [? [Hd H]].
  apply bind_ok in H; destruct H as [? [_ H]]. intros T F S k' T'. pose proof (sol_move _ _ _ _ _ _ _ H k') as [[D O] L]. rewrite O in T'. unfold sol_acct. rewrite D.
  destruct (pk_dec k' k) as [->|N].
  - intros t r E N. exfalso. rewrite E in Hd. apply bind_ok in Hd. destruct Hd as ([] & G & _). apply guard_ok in G. rewrite N in G. discriminate.
  - apply (meek_sol (a_data (l k')) _ (a_lamports (l k'))); [apply meek_refl|exact (L N)|exact (S k' T')].
Qed.

Theorem tok_exec_steps e p cpi ms ix l l' :
  tok_exec e p cpi ms ix l = Ok l' ->
  exists l3, changes p ms l l3 /\ conserves p l l3 /\ solids p l l3 /\
    (l' = l3 \/ exists m mnt n, unpack_mint p (a_data (l mnt)) = Ok m /\ run_hook e m ms n l3 = Ok l').
Proof.
  intro H0. destruct (tok_exec_step _ _ _ _ _ _ _ H0) as (l3 & C & K & Q). pose proof H0 as H. unfold tok_exec in H.
  assert (TR : forall s mnt d a sg n dec ef, tok_transfer_checked e p cpi ms s mnt d a sg n dec ef l = Ok l' ->
     exists l3, changes p ms l l3 /\ conserves p l l3 /\ solids p l l3 /\
       (l' = l3 \/ exists m mnt n, unpack_mint p (a_data (l mnt)) = Ok m /\ run_hook e m ms n l3 = Ok l')).
  { intros s mnt d a sg n dec ef X. apply solids_transfer_checked in X. destruct X as (m & l4 & Hm & C4 & K4 & S4 & X). exists l4.
    split; [exact C4|]. split; [exact K4|]. split; [exact S4|]. destruct X as [X|X]; [left; exact X|right; exists m, mnt, n; auto]. }
  assert (CT : forall s mnt d a sg n, tok_confidential_transfer e p ms s mnt d a sg n l = Ok l' ->
     exists l3, changes p ms l l3 /\ conserves p l l3 /\ solids p l l3 /\
       (l' = l3 \/ exists m mnt n, unpack_mint p (a_data (l mnt)) = Ok m /\ run_hook e m ms n l3 = Ok l')).
  { intros s mnt d a sg n X. apply solids_confidential_transfer in X. destruct X as (m & l4 & Hm & C4 & K4 & S4 & X). exists l4.
    split; [exact C4|]. split; [exact K4|]. split; [exact S4|]. destruct X as [X|X]; [left; exact X|right; exists m, mnt, n; auto]. }
  assert (PL : changes p ms l l' -> conserves p l l' -> solids p l l' ->
     exists l3, changes p ms l l3 /\ conserves p l l3 /\ solids p l l3 /\
       (l' = l3 \/ exists m mnt n, unpack_mint p (a_data (l mnt)) = Ok m /\ run_hook e m ms n l3 = Ok l')).
  { intros C' K' S'. exists l'. auto. }
  clear C K Q H0.
  destruct ix; destruct (map i_key ms) as [|k1 [|k2 [|k3 [|k4 rest]]]]; try discriminate H; inv_ok;
    try (apply PL;
         [ first [ eapply changes_transfer_plain; eassumption | eapply changes_mint_to; eassumption
               | eapply changes_burn; eassumption | eapply changes_tok_close; eassumption
               | eapply changes_init_ext; eassumption | eapply changes_init_mint; eassumption
               | eapply changes_md_initialize; eassumption | eapply changes_md_update; eassumption
               | eapply changes_md_remove; eassumption | eapply changes_init_account; eassumption
               | eapply changes_sync_native; eassumption | eapply changes_init_multisig; eassumption
               | eapply changes_approve; eassumption | eapply changes_revoke; eassumption
               | eapply changes_set_authority; eassumption | eapply changes_freeze; eassumption
               | eapply changes_update_ext; eassumption | eapply changes_update_acct_exts; eassumption
               | eapply changes_confidential; eassumption | eapply changes_harvest; eassumption
               | eapply changes_withdraw_withheld; eassumption
               | eapply changes_withdraw_withheld_from; eassumption
               | eapply changes_withdraw_excess; eassumption ]
         | first [ eapply conserves_transfer_plain; eassumption | eapply conserves_mint_to; eassumption
               | eapply conserves_burn; eassumption | eapply conserves_tok_close; eassumption
               | eapply conserves_init_ext; eassumption | eapply conserves_init_mint; eassumption
               | eapply conserves_md_initialize; eassumption | eapply conserves_md_update; eassumption
               | eapply conserves_md_remove; eassumption | eapply conserves_init_account; eassumption
               | eapply conserves_sync_native; eassumption | eapply conserves_init_multisig; eassumption
               | eapply conserves_approve; eassumption | eapply conserves_revoke; eassumption
               | eapply conserves_set_authority; eassumption | eapply conserves_freeze; eassumption
               | eapply conserves_update_ext; eassumption | eapply conserves_update_acct_exts; eassumption
               | eapply conserves_confidential; eassumption | eapply conserves_harvest; eassumption
               | eapply conserves_withdraw_withheld; eassumption
               | eapply conserves_withdraw_withheld_from; eassumption
               | eapply conserves_withdraw_excess; eassumption ]
         | first [ eapply solids_transfer_plain; eassumption | eapply solids_mint_to; eassumption
               | eapply solids_burn; eassumption | eapply solids_tok_close; eassumption
               | eapply solids_init_ext; eassumption | eapply solids_init_mint; eassumption
               | eapply solids_md_initialize; eassumption | eapply solids_md_update; eassumption
               | eapply solids_md_remove; eassumption | eapply solids_init_account; eassumption
               | eapply solids_sync_native; eassumption | eapply solids_init_multisig; eassumption
               | eapply solids_approve; eassumption | eapply solids_revoke; eassumption
               | eapply solids_set_authority; eassumption | eapply solids_freeze; eassumption
               | eapply solids_update_ext; eassumption | eapply solids_update_acct_exts; eassumption
               | eapply solids_confidential; eassumption | eapply solids_harvest; eassumption
               | eapply solids_withdraw_withheld; eassumption
               | eapply solids_withdraw_withheld_from; eassumption
               | eapply solids_withdraw_excess; eassumption ] ]).
  all: first [eapply TR; exact H|eapply CT; exact H].
Qed.

(** ** Everything else *)
Lemma world_sol e0 l l' : Inv e0 l -> world_change l l' -> Sol l -> Sol l'.
Proof.
  intros I W S k T. destruct (W k) as (A & _ & B & _). destruct (ruled_dec (a_owner (l k))) as [R|R].
  - destruct (A R) as (D & O & L). rewrite O in T. unfold sol_acct. rewrite D. apply (meek_sol (a_data (l k)) _ (a_lamports (l k))); [apply meek_refl|exact L|exact (S k T)].
  - intros t r E N. destruct (B R (token_ruled _ T)) as [(n & D)|(_ & _ & D)]; congruence.
Qed.
Lemma ata_sol e p wallet mnt l l' : ata_create e p wallet mnt l = Ok l' -> Sol l -> Sol l'.
Proof.
  intros H S k T. destruct (ata_created _ _ _ _ _ _ H) as (Lo & m & t & _ & O & D & _ & _ & _ & _ & _ & N & A & _ & _ & R & La).
  destruct (pk_dec k (ata_of e wallet mnt p)) as [Q|Q]; [|rewrite (Lo _ Q) in *; exact (S k T)].
  rewrite Q. unfold sol_acct. rewrite D, La. intros t' r E Nr. inversion E; subst t'. rewrite A. rewrite N in Nr.
  destruct (is_native_mint p mnt); [|discriminate]. inversion Nr; subst r. lia.
Qed.
Lemma foreign_sol e0 l l' : Inv e0 l -> foreign_steps l l' -> Sol l -> Sol l'.
Proof.
  intros I F. induction F as [l|e cpi ms ix l l1 l2 N X F IH|e wallet mnt l l1 l2 X F IH|l l1 l2 W F IH]; intro E.
  - exact E.
  - apply tok_exec_steps in X. destruct X as (l3 & C & K & S & H). assert (T : token_program spl_token_id) by (left; reflexivity).
    assert (l1 = l3).
    { destruct H as [H|(m & mnt & n & U & H)]; [exact H|]. unfold run_hook in H. destruct (ext_hook m) as [q|] eqn:Q; [|congruence].
      pose proof (ext_hook_t22 _ _ _ _ T U Q). discriminate. }
    subst l3. apply IH; [exact (changes_inv _ _ _ _ _ I T N C K)|]. exact (S T (inv_natives _ _ _ I T) E).
  - assert (T : token_program spl_token_id) by (left; reflexivity). destruct (ata_good _ _ _ _ _ _ _ I T X) as (I1 & _).
    apply IH; [exact I1|]. exact (ata_sol _ _ _ _ _ _ X E).
  - destruct (world_good _ _ _ I W) as (I1 & _). apply IH; [exact I1|exact (world_sol _ _ _ I W E)].
Qed.
Lemma hook_sol e0 e m ms n l l' : lawful e0 e -> Inv e0 l -> run_hook e m ms n l = Ok l' -> Sol l -> Sol l'.
Proof.
  intros [_ L] I H. unfold run_hook in H. destruct (ext_hook m) as [p|]; [|inversion H; subst; intro E; exact E].
  destruct (e_hook e p ms n l) as [x|] eqn:E; [|discriminate]. cbn in H. destruct (balanced _ _ _); [|discriminate]. cbn in H. inversion H; subst.
  apply (foreign_sol e0); [exact I|]. exact (L _ _ _ _ _ E).
Qed.
Lemma tok_exec_sol e0 e p cpi ms ix l l' :
  lawful e0 e -> Inv e0 l -> token_program p -> no_tw_signer ms -> tok_exec e p cpi ms ix l = Ok l' -> Sol l -> Sol l'.
Proof.
  intros L I T N X E. apply tok_exec_steps in X. destruct X as (l3 & C & K & S & H).
  pose proof (changes_inv _ _ _ _ _ I T N C K) as I3. pose proof (S T (inv_natives _ _ _ I T) E) as E3.
  destruct H as [->|(m & mnt & n & _ & H)]; [exact E3|exact (hook_sol _ _ _ _ _ _ _ L I3 H E3)].
Qed.

(** ** Token-wrap's instructions *)
Lemma transfer_sol e p cpi ms src mnt dst auth signers amount dec expf l l' :
  Inv e l -> lawful e e -> token_program p ->
  tok_transfer_checked e p cpi ms src mnt dst auth signers amount dec expf l = Ok l' -> Sol l -> Sol l'.
Proof.
  intros I L T H E. destruct (pk_dec src dst) as [<-|Hne].
  - apply transfer_checked_inv in H.
    destruct H as (s & m & fee & s1 & _ & _ & _ & _ & _ & _ & _ & _ & _ & _ & _ & _ & [[_ ->]|(Q & _)]); [exact E|contradiction].
  - destruct (transfer_mid _ _ _ _ _ _ _ _ _ _ _ _ _ _ I T Hne H)
      as (s & d & m & fee & s1 & dx & l3 & Ds & Dd & Ms & Md & Os & Od & Ha & _ & _ & _ & N1 & A1 & _ & _ & Mv & I3 & _ & ms' & n & Hk).
    apply (hook_sol _ _ _ _ _ _ _ L I3 Hk).
    refine (solids_transfer_ledger p ms l src dst s s1 d dx amount fee l3 Hne Ds Dd _ A1 N1 Ha Os Od Mv T (inv_natives _ _ _ I T) E). congruence.
Qed.
Lemma wrap_sol e c amount l l' :
  Inv e l -> lawful e e -> no_tw_signer (c_infos c) -> c_prog c = tw_id -> process_wrap e c amount l = Ok l' -> Sol l -> Sol l'.
Proof.
  intros I L NS Hc H E. destruct (map i_key (c_infos c)) as [|r [|w [|a [|up [|wp [|s [|u [|esc [|ta rest]]]]]]]]] eqn:Ek;
    try (unfold process_wrap in H; inv_ok; destruct (c_infos c) as [|? [|? [|? [|? [|? [|? [|? [|? [|? ?]]]]]]]]]; discriminate).
  destruct (process_wrap_inv _ _ _ _ _ _ _ _ _ _ _ _ _ _ _ Ek Hc H)
    as (Hn0 & Tu & Tw & Hw & Ha & He & et & um & ms & extra & l1 & msm & Uet & Wet & Uum & Hfee & Hms & Cp & Ht & _ & _ & Hm).
  destruct (transfer_any_good _ _ _ _ _ _ _ _ _ _ _ _ _ _ I L Tu Ht) as (I1 & _).
  apply solids_mint_to in Hm. exact (Hm Tw (inv_natives _ _ _ I1 Tw) (transfer_sol _ _ _ _ _ _ _ _ _ _ _ _ _ _ I L Tu Ht E)).
Qed.
Lemma unwrap_sol e c amount l l' :
  Inv e l -> lawful e e -> no_tw_signer (c_infos c) -> c_prog c = tw_id -> process_unwrap e c amount l = Ok l' -> Sol l -> Sol l'.
Proof.
  intros I L NS Hc H E. destruct (map i_key (c_infos c)) as [|esc [|r [|a [|u [|wp [|up [|s [|w [|ta rest]]]]]]]]] eqn:Ek;
    try (unfold process_unwrap in H; inv_ok; destruct (c_infos c) as [|? [|? [|? [|? [|? [|? [|? [|? [|? ?]]]]]]]]]; discriminate).
  destruct (process_unwrap_inv _ _ _ _ _ _ _ _ _ _ _ _ _ _ _ Ek Hc H)
    as (Hn0 & Tu & Tw & Hw & Ha & He & msk & msb & l1 & um & extra & ms & _ & Cp & Hb & _ & _ & _ & Ht).
  pose proof (plain_unsigned _ _ NS Cp) as NM.
  pose proof (changes_burn _ _ _ _ _ _ _ _ _ _ Hb) as C1. pose proof (conserves_burn _ _ _ _ _ _ _ _ _ _ Hb) as K1. pose proof (solids_burn _ _ _ _ _ _ _ _ _ _ Hb) as S1.
  pose proof (changes_inv _ _ _ _ _ I Tw NM C1 K1) as I1.
  exact (transfer_sol _ _ _ _ _ _ _ _ _ _ _ _ _ _ I1 L Tu Ht (S1 Tw (inv_natives _ _ _ I Tw) E)).
Qed.
Lemma calm_sol (l l' : ledger) :
  (forall k, token_program (a_owner (l' k)) -> (a_owner (l' k) = a_owner (l k) /\ meek (a_data (l k)) (a_data (l' k)) /\ a_lamports (l k) <= a_lamports (l' k)) \/
     forall t, a_data (l' k) <> DTok t) -> Sol l -> Sol l'.
Proof.
  intros H S k T. destruct (H k T) as [(O & M & L)|N].
  - rewrite O in T. exact (meek_sol _ _ _ _ M L (S k T)).
  - intros t r E. destruct (N t E).
Qed.
Lemma create_sol e c idem l l' : c_prog c = tw_id -> process_create_mint default_customizer e c idem l = Ok l' -> Sol l -> Sol l'.
Proof.
  intros Hc H. destruct (map i_key (c_infos c)) as [|w [|b [|u [|x [|p rest]]]]] eqn:Ek;
    try (unfold process_create_mint in H; destruct (c_infos c) as [|? [|? [|? [|? [|? ?]]]]]; discriminate).
  destruct (process_create_inv _ _ _ _ _ _ _ _ _ _ _ Ek Hc H) as (Hw & Hb & _ & [(_ & _ & _ & _ & ->)|X]); [intro E; exact E|].
  destruct X as (_ & _ & Ow & Ob & T & _ & _ & _ & _ & mu & _ & Lw & Lb & Lo). apply calm_sol. intros k _.
  destruct (pk_dec k w) as [->|N1]; [right; rewrite Lw; discriminate|]. destruct (pk_dec k b) as [->|N2]; [right; rewrite Lb; discriminate|].
  left. rewrite Lo by assumption. split; [reflexivity|]. split; [apply meek_refl|lia].
Qed.
Lemma close_sol e c l l' : Inv e l -> c_prog c = tw_id -> process_close_stuck_escrow e c l = Ok l' -> Sol l -> Sol l'.
Proof.
  intros I Hc H E. destruct (map i_key (c_infos c)) as [|esc [|d [|u [|w [|a [|p rest]]]]]] eqn:Ek;
    try (unfold process_close_stuck_escrow in H; destruct (c_infos c) as [|? [|? [|? [|? [|? [|? ?]]]]]]; discriminate).
  destruct (process_close_inv _ _ _ _ _ _ _ _ _ _ _ Ek Hc H) as (Oe & _ & _ & _ & He & et & m & msc & Ue & _ & Za & _ & _ & _ & _ & _ & _ & Ht).
  assert (T : token_program t22_id) by (right; reflexivity).
  apply solids_tok_close in Ht. exact (Ht T (inv_natives _ _ _ I T) E).
Qed.
Lemma sync_t22_sol e c l l' : c_prog c = tw_id -> process_sync_metadata_to_token_2022 e c l = Ok l' -> Sol l -> Sol l'.
Proof.
  intros Hc H. destruct (map i_key (c_infos c)) as [|w [|a [|u [|p rest]]]] eqn:Ek;
    try (unfold process_sync_metadata_to_token_2022 in H; destruct (c_infos c) as [|? [|? [|? [|? ?]]]]; discriminate).
  destruct (process_sync_t22_inv _ _ _ _ _ _ _ _ _ Ek Hc H) as (_ & Ow & Hw & Ha & um & m & _ & Um & X).
  apply calm_sol. intros k _. destruct (pk_dec k w) as [->|N].
  - right. apply pod_unpack_mint_inv in Um. destruct Um as [Dm _]. intros t Q. destruct X as [(t0 & _ & _ & len & Hlen & Lw)|(_ & _ & _ & _ & Lw)]; rewrite Lw in Q; discriminate.
  - left. destruct X as [(t & _ & Lo & _)|(_ & _ & _ & Lo & _)]; rewrite (Lo k N); (split; [reflexivity|]; split; [apply meek_refl|lia]).
Qed.
Lemma sync_spl_sol e c l l' : c_prog c = tw_id -> process_sync_metadata_to_spl_token e c l = Ok l' -> Sol l -> Sol l'.
Proof.
  intros Hc H. destruct (map i_key (c_infos c)) as [|md [|a [|w [|u [|x [|sy [|rn rest]]]]]]] eqn:Ek;
    try (unfold process_sync_metadata_to_spl_token in H; destruct (c_infos c) as [|? [|? [|? [|? [|? [|? [|? ?]]]]]]]; discriminate).
  destruct (process_sync_spl_inv _ _ _ _ _ _ _ _ _ _ _ _ Ek Hc H) as (_ & _ & _ & Ha & Hmd & _ & um & d & _ & _ & X).
  apply calm_sol. intros k T. destruct (pk_dec k md) as [->|N1].
  - right. destruct X as [(_ & _ & _ & _ & _ & _ & m & _ & _ & ->)|(_ & _ & old & _ & _ & _ & _ & ->)]; cbv zeta; rewrite upd_same; discriminate.
  - left. destruct X as [(_ & _ & _ & Oa & _ & _ & m & _ & _ & El)|(_ & _ & old & _ & _ & _ & _ & El)]; rewrite El in *; cbv zeta in *; rewrite (upd_other _ md) in * by congruence.
    + destruct (pk_dec a k) as [<-|N2]; [|rewrite upd_other by exact N2; split; [reflexivity|]; split; [apply meek_refl|lia]].
      exfalso. rewrite upd_same in T. cbn in T. rewrite Oa in T. exact (token_not_system _ T eq_refl).
    + split; [reflexivity|]. split; [apply meek_refl|lia].
Qed.
Lemma set_pointer_sol e c v l l' : c_prog c = tw_id -> process_set_canonical_pointer e c v l = Ok l' -> Sol l -> Sol l'.
Proof.
  intros Hc H. destruct (map i_key (c_infos c)) as [|a [|p [|u [|x rest]]]] eqn:Ek;
    try (unfold process_set_canonical_pointer in H; destruct (c_infos c) as [|? [|? [|? [|? ?]]]]; discriminate).
  destruct (process_set_pointer_inv _ _ _ _ _ _ _ _ _ _ Ek Hc H) as (Sa & Tu & Hp & _ & (m & Um & Am) & _ & Lp & Lo).
  apply calm_sol. intros k _. destruct (pk_dec k p) as [->|N]; [right; rewrite Lp; discriminate|]. left.
  rewrite (Lo k N). split; [reflexivity|]. split; [apply meek_refl|lia].
Qed.

(** ** Histories *)
Lemma step_sol e0 a l l' : Inv e0 l -> step e0 a l l' -> Sol l -> Sol l'.
Proof.
  intros I S. destruct S as [e accounts input l l' L NS R|e p cpi accounts ix l l' L T NS X|e p wallet mnt l l' L T X|l l' W].
  - pose proof L as [C _]. pose proof (Inv_curve _ _ _ C I) as Ie. pose proof (lawful_self _ _ L) as Le.
    unfold runs, process_instruction in R. apply bind_ok in R. destruct R as (i & Ei & H).
    assert (CP : c_prog (mkCtx tw_id accounts) = tw_id) by reflexivity.
    assert (NS' : no_tw_signer (c_infos (mkCtx tw_id accounts))) by exact NS.
    destruct i; cbn [process_instr map_instr] in H.
    + exact (create_sol _ _ _ _ _ CP H).
    + exact (wrap_sol _ _ _ _ _ Ie Le NS' CP H).
    + exact (unwrap_sol _ _ _ _ _ Ie Le NS' CP H).
    + exact (close_sol _ _ _ _ Ie CP H).
    + exact (sync_t22_sol _ _ _ _ CP H).
    + exact (sync_spl_sol _ _ _ _ CP H).
    + exact (set_pointer_sol _ _ _ _ _ CP H).
  - exact (tok_exec_sol _ _ _ _ _ _ _ _ L I T NS X).
  - exact (ata_sol _ _ _ _ _ _ X).
  - exact (world_sol _ _ _ I W).
Qed.
Lemma history_sol e0 past l : history e0 past l -> Sol l.
Proof.
  induction 1 as [l G|past l a l' H IH S]; [|exact (step_sol _ _ _ _ (history_inv _ _ _ H) S IH)].
  destruct G as (_ & D1 & N2 & NR & _). intros k T t r E N.
  destruct (pk_dec k native_mint_id) as [->|A]; [congruence|]. destruct (pk_dec k native_mint_2022_id) as [->|B].
  - destruct N2 as [[D _]|[_ D]]; congruence.
  - exfalso. apply (NR k); [intros [Q|Q]; contradiction|]. apply token_ruled; exact T.
Qed.
Lemma reachable_sol e0 l : reachable e0 l -> Sol l.
Proof. intros [past H]. exact (history_sol _ _ _ H). Qed.
