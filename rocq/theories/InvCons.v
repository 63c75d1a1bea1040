(** * InvCons.v — conservation: the tokens on all accounts of a mint never exceed its supply.

    A token account of a mint counts with its amount, withheld fees and hidden confidential
    balance; the mint itself counts with the fees withheld on it. *)
From Verif Require Import Base Codec State Pda TokenProg Cpi Tac TokProofs FrameProofs ProcProofs CloseProofs InvTok.

Definition tok_val (t : tokacc) : N := t_amount t + withheld_of (t_exts t) + confidential_of (t_exts t).
Definition mint_withheld (x : list mint_ext) : N := fold_right (fun y acc => ext_withheld y + acc) 0 x.
Definition data_val (v k : pubkey) (d : data) : N :=
  match d with
  | DTok t => if pk_eqb (t_mint t) v then tok_val t else 0
  | DMint m => if pk_eqb k v then mint_withheld (m_exts m) else 0
  | _ => 0
  end.
Definition data_cap (v k : pubkey) (d : data) : N :=
  match d with
  | DMint m => if pk_eqb k v then m_supply m else 0
  | _ => 0
  end.
Definition val (p v : pubkey) (l : ledger) (k : pubkey) : N :=
  if pk_eqb (a_owner (l k)) p then data_val v k (a_data (l k)) else 0.
Definition room (p v : pubkey) (l : ledger) (k : pubkey) : N :=
  if pk_eqb (a_owner (l k)) p then data_cap v k (a_data (l k)) else 0.
Definition sumf (f : pubkey -> N) (ks : list pubkey) : N := fold_right (fun k acc => f k + acc) 0 ks.
(** The invariant. *)
Definition conserved (p v : pubkey) (l : ledger) : Prop :=
  forall ks, NoDup ks -> sumf (val p v l) ks <= room p v l v.

Lemma sumf_app f a b : sumf f (a ++ b) = sumf f a + sumf f b.
Proof. induction a as [|x a IH]; simpl; [reflexivity|rewrite IH; lia]. Qed.
Lemma sumf_ext f g ks : (forall k, In k ks -> f k = g k) -> sumf f ks = sumf g ks.
Proof. induction ks as [|x a IH]; simpl; intro H; [reflexivity|]. rewrite H, IH by auto. reflexivity. Qed.
Lemma sumf_incl f a : forall b, NoDup a -> incl a b -> sumf f a <= sumf f b.
Proof.
  induction a as [|x a IH]; intros b N I; simpl; [lia|].
  inversion N; subst. destruct (in_split x b) as (b1 & b2 & ->); [apply I; left; reflexivity|].
  assert (sumf f a <= sumf f (b1 ++ b2)).
  { apply IH; auto. intros y Hy. specialize (I y (or_intror Hy)). apply in_app_iff in I. apply in_app_iff.
    destruct I as [?|[->|?]]; auto. contradiction. }
  rewrite sumf_app in *. simpl. lia.
Qed.
Lemma room_other p v l k : k <> v -> room p v l k = 0.
Proof.
  intro H. unfold room, data_cap. destruct (pk_eqb (a_owner (l k)) p); auto. destruct (a_data (l k)); auto.
  apply pk_eqb_neq in H. now rewrite H.
Qed.
Lemma sum_room p v l D : NoDup D -> sumf (room p v l) D = if pk_mem v D then room p v l v else 0.
Proof.
  induction D as [|x D IH]; intro N; [reflexivity|]. inversion N; subst. simpl. rewrite IH by auto. fold (pk_mem v D).
  destruct (pk_eqb v x) eqn:E; simpl.
  - apply pk_eqb_eq in E; subst. destruct (pk_mem x D) eqn:M; [apply pk_mem_In in M; contradiction|lia].
  - apply pk_eqb_neq in E. rewrite room_other by congruence. lia.
Qed.
(** Only the accounts in [D] change, and together they gain no more than the mint issues. *)
Lemma conserved_step p v l l' D :
  NoDup D -> (forall k, ~ In k D -> same_do (l k) (l' k)) ->
  sumf (val p v l') D + sumf (room p v l) D <= sumf (val p v l) D + sumf (room p v l') D ->
  conserved p v l -> conserved p v l'.
Proof.
  intros ND S Hle C ks Nk. rewrite !sum_room in Hle by exact ND.
  set (R := filter (fun k => negb (pk_mem k D)) ks).
  assert (HR : forall k, In k R -> ~ In k D).
  { intros k Hk. apply filter_In in Hk. destruct Hk as [_ Hk]. apply negb_true_iff in Hk. rewrite <- pk_mem_In. congruence. }
  assert (NRD : NoDup (R ++ D)).
  { apply NoDup_app_intro; [apply NoDup_filter; exact Nk|exact ND|exact HR]. }
  assert (I1 : incl ks (R ++ D)).
  { intros k Hk. apply in_app_iff. destruct (pk_mem k D) eqn:E; [right; now apply pk_mem_In|]. left. apply filter_In. now rewrite E. }
  pose proof (sumf_incl (val p v l') ks (R ++ D) Nk I1) as H1. rewrite sumf_app in H1.
  pose proof (C (R ++ D) NRD) as H2. rewrite sumf_app in H2.
  assert (E : sumf (val p v l') R = sumf (val p v l) R).
  { apply sumf_ext. intros k Hk. destruct (S k (HR k Hk)) as [A B]. unfold val. rewrite A, B. reflexivity. }
  assert (Hv : pk_mem v D = false -> room p v l' v = room p v l v).
  { intro M. assert (~ In v D) as Nv by (rewrite <- pk_mem_In; congruence). destruct (S v Nv) as [A B].
    unfold room. rewrite A, B. reflexivity. }
  destruct (pk_mem v D); [lia|]. rewrite Hv by reflexivity. lia.
Qed.
Lemma conserved_same p v l l' : (forall k, same_do (l k) (l' k)) -> conserved p v l -> conserved p v l'.
Proof. intros S. apply (conserved_step p v l l' []); [constructor|auto|reflexivity]. Qed.

(** What one account adds to the balance, as data under program [q]. *)
Definition gain_ok (v k : pubkey) (d d' : data) : Prop := data_val v k d' + data_cap v k d <= data_val v k d + data_cap v k d'.
Lemma conserved_one p v q ms k d l l' :
  set_data q ms k d l = Ok l' -> (p = q -> gain_ok v k (a_data (l k)) d) -> conserved p v l -> conserved p v l'.
Proof.
  intros H G. apply set_data_inv in H. destruct H as (_ & O & ->).
  apply (conserved_step p v l _ [k]); [repeat constructor; auto| |].
  - intros k' Hk. rewrite upd_other by (intros ->; apply Hk; left; reflexivity). split; reflexivity.
  - cbn [sumf fold_right]. unfold val, room. rewrite !upd_same. cbn [a_owner a_data with_data]. rewrite O.
    destruct (pk_eqb q p) eqn:E; [|lia]. apply pk_eqb_eq in E. unfold gain_ok in G. specialize (G (eq_sym E)). lia.
Qed.
Lemma conserved_two p v q ms k1 d1 k2 d2 l l1 l2 :
  k1 <> k2 -> set_data q ms k1 d1 l = Ok l1 -> set_data q ms k2 d2 l1 = Ok l2 ->
  (p = q -> data_val v k1 d1 + data_val v k2 d2 + data_cap v k1 (a_data (l k1)) + data_cap v k2 (a_data (l k2)) <=
            data_val v k1 (a_data (l k1)) + data_val v k2 (a_data (l k2)) + data_cap v k1 d1 + data_cap v k2 d2) ->
  conserved p v l -> conserved p v l2.
Proof.
  intros Hne H1 H2 G. apply set_data_inv in H1. destruct H1 as (_ & O1 & ->). apply set_data_inv in H2. destruct H2 as (_ & O2 & ->).
  rewrite upd_other in O2 by exact Hne.
  apply (conserved_step p v l _ [k1; k2]); [repeat constructor; simpl; intuition|  |].
  - intros k' Hk. rewrite !upd_other by (intros ->; apply Hk; simpl; auto). split; reflexivity.
  - cbn [sumf fold_right]. unfold val, room. rewrite !(upd_other _ k2 _ k1) by congruence. rewrite !(upd_other _ k1 _ k2) by exact Hne.
    rewrite !upd_same. cbn [a_owner a_data with_data]. rewrite O1, O2.
    destruct (pk_eqb q p) eqn:E; [|lia]. apply pk_eqb_eq in E. specialize (G (eq_sym E)). lia.
Qed.
Lemma conserved_close p v q ms acc dst n l l1 l2 :
  move_lamports q ms acc dst n l = Ok l1 -> delete_account q ms acc l1 = Ok l2 ->
  (p = q -> data_cap v acc (a_data (l acc)) <= data_val v acc (a_data (l acc))) ->
  conserved p v l -> conserved p v l2.
Proof.
  intros H1 H2 G. pose proof (move_lamports_same _ _ _ _ _ _ _ H1) as S. apply delete_account_inv in H2. destruct H2 as (_ & O & ->).
  assert (S2 := S acc). destruct S2 as [A B]. rewrite B in O.
  apply (conserved_step p v l _ [acc]); [repeat constructor; auto| |].
  - intros k' Hk. rewrite upd_other by (intros ->; apply Hk; left; reflexivity). apply S.
  - cbn [sumf fold_right]. unfold val, room. rewrite !upd_same. cbn [a_owner a_data]. rewrite O.
    destruct (pk_eqb q p) eqn:E.
    + apply pk_eqb_eq in E. specialize (G (eq_sym E)).
      destruct (pk_eqb system_id p); cbn [data_val data_cap DEmpty]; lia.
    + destruct (pk_eqb system_id p); cbn; lia.
Qed.

(** ** What extension updates do to the totals *)
Lemma mint_withheld_app x y : mint_withheld (x ++ y) = mint_withheld x + mint_withheld y.
Proof. unfold mint_withheld. induction x as [|a r IH]; simpl; [reflexivity|]. rewrite IH. lia. Qed.
Lemma replace_ext_withheld x l old :
  find (mint_ext_same x) l = Some old -> ext_withheld old = ext_withheld x -> mint_withheld (replace_ext x l) = mint_withheld l.
Proof.
  induction l as [|a r IH]; simpl; [discriminate|]. destruct (mint_ext_same x a); simpl; intros H E.
  - inversion H; subst. rewrite E. reflexivity.
  - rewrite (IH H E). reflexivity.
Qed.
Lemma replace_metadata_withheld t x : mint_withheld (replace_metadata t x) = mint_withheld x.
Proof. induction x as [|a r IH]; [reflexivity|]. destruct a; simpl; rewrite ?IH; reflexivity. Qed.
Lemma set_fee_withheld_of n x c :
  find_map (fun e => match e with MxTransferFee c => Some c | _ => None end) x = Some c ->
  mint_withheld (set_fee_withheld n x) + fc_withheld c = mint_withheld x + n.
Proof.
  induction x as [|a r IH]; [discriminate|]. destruct a; simpl; intro H; try (specialize (IH H); lia).
  inversion H; subst; simpl. lia.
Qed.
Lemma initializable_withheld x : mint_ext_initializable x = true -> ext_withheld x = 0.
Proof.
  unfold mint_ext_initializable. intro H. apply andb_true_iff in H. destruct H as [_ H].
  destruct x; try reflexivity. simpl in *. now apply N.eqb_eq in H.
Qed.
Lemma fresh_val m imm p : withheld_of (init_account_exts p m imm) = 0 /\ confidential_of (init_account_exts p m imm) = 0.
Proof.
  unfold init_account_exts. destruct (pk_eqb p spl_token_id); [split; reflexivity|].
  match goal with |- context [map fresh_acct_ext ?x] => induction x as [|a r [A B]] end; [split; reflexivity|].
  destruct a; simpl; rewrite ?A, ?B; split; reflexivity.
Qed.

(** What the other invariants give. *)
Definition mints_fine (q : pubkey) (l : ledger) : Prop :=
  forall k m, a_owner (l k) = q -> a_data (l k) = DMint m -> m_init m = false -> m_supply m = 0.
Definition natives_fine (q : pubkey) (l : ledger) : Prop :=
  forall k t, a_owner (l k) = q -> a_data (l k) = DTok t -> (t_native t <> None <-> is_native_mint q (t_mint t) = true).

Lemma gain_tok v k t t' : t_mint t' = t_mint t -> tok_val t' <= tok_val t -> gain_ok v k (DTok t) (DTok t').
Proof. intros M H. unfold gain_ok; cbn. rewrite M. destruct (pk_eqb (t_mint t) v); lia. Qed.
Lemma gain_mint v k m m' : mint_withheld (m_exts m') <= mint_withheld (m_exts m) -> m_supply m <= m_supply m' -> gain_ok v k (DMint m) (DMint m').
Proof. intros A B. unfold gain_ok; cbn. destruct (pk_eqb k v); lia. Qed.
Lemma gain_uninit v k d m m' :
  unpack_uninit_mint d = Ok m -> (d = DMint m -> m_supply m = 0) -> mint_withheld (m_exts m') <= mint_withheld (m_exts m) -> gain_ok v k d (DMint m').
Proof.
  intros H S W. apply unpack_uninit_mint_inv in H. destruct H as (_ & [(r & -> & _ & ->)|Hd]).
  - unfold gain_ok; cbn in *. destruct (pk_eqb k v); lia.
  - specialize (S Hd). rewrite Hd. unfold gain_ok; cbn. destruct (pk_eqb k v); lia.
Qed.

(** ** Each instruction conserves *)
Arguments withheld_of : simpl never.
Arguments confidential_of : simpl never.
Arguments mint_withheld : simpl never.
Definition conserves (q : pubkey) (l l' : ledger) : Prop :=
  mints_fine q l -> natives_fine q l -> forall p v, is_native_mint p v = false -> conserved p v l -> conserved p v l'.
Lemma conserves_one q ms k d l l' :
  set_data q ms k d l = Ok l' ->
  (mints_fine q l -> natives_fine q l -> a_owner (l k) = q -> forall v, is_native_mint q v = false -> gain_ok v k (a_data (l k)) d) -> conserves q l l'.
Proof.
  intros H G F1 F2 p v N. pose proof (set_data_inv _ _ _ _ _ _ H) as (_ & O & _).
  eapply conserved_one; [exact H|]. intros ->. apply G; auto.
Qed.
Lemma conserves_two q ms k1 d1 k2 d2 l l1 l2 :
  k1 <> k2 -> set_data q ms k1 d1 l = Ok l1 -> set_data q ms k2 d2 l1 = Ok l2 ->
  (forall v, data_val v k1 d1 + data_val v k2 d2 + data_cap v k1 (a_data (l k1)) + data_cap v k2 (a_data (l k2)) <=
            data_val v k1 (a_data (l k1)) + data_val v k2 (a_data (l k2)) + data_cap v k1 d1 + data_cap v k2 d2) ->
  conserves q l l2.
Proof. intros Hne H1 H2 G F1 F2 p v N. eapply conserved_two; eauto. Qed.
Lemma conserves_same q l l' : (forall k, same_do (l k) (l' k)) -> conserves q l l'.
Proof. intros S _ _ p v _. apply conserved_same; exact S. Qed.
Lemma conserves_then_same q l l1 l2 : conserves q l l1 -> (forall k, same_do (l1 k) (l2 k)) -> conserves q l l2.
Proof. intros C S F1 F2 p v N H. eapply conserved_same; [exact S|]. apply C; auto. Qed.

Lemma conserves_transfer_ledger p ms l src dst s s1 d dx amount fee l3 :
  src <> dst -> a_data (l src) = DTok s -> a_data (l dst) = DTok d -> t_mint d = t_mint s ->
  t_mint s1 = t_mint s -> t_amount s1 = t_amount s -> t_exts s1 = t_exts s -> amount <= t_amount s -> fee <= amount ->
  (if fee =? 0 then dx = t_exts d else add_withheld fee (t_exts d) = Some dx) ->
  is_wr ms src = true -> is_wr ms dst = true -> a_owner (l src) = p -> a_owner (l dst) = p ->
  (forall k, same_do (transfer_ledger l src dst s1 d dx amount fee k) (l3 k)) -> conserves p l l3.
Proof.
  intros Hne Ds Dd Hm F1 F2 F3 Ha Hf Hx W1 W2 O1 O2 S. eapply conserves_then_same; [|exact S].
  unfold transfer_ledger. cbv zeta. rewrite (upd_other l src _ dst) by exact Hne.
  eapply (conserves_two p ms src (DTok (set_amount (t_amount s1 - amount) s1)) dst (DTok (set_texts dx (set_amount (t_amount d + (amount - fee)) d))) l _ _ Hne).
  - apply set_data_ok; auto.
  - rewrite set_data_ok; auto; rewrite (upd_other l src _ dst) by exact Hne; auto.
  - intro v. rewrite Ds, Dd. cbn [data_val data_cap t_mint set_amount set_texts]. rewrite F1, Hm. unfold tok_val. cbn [t_amount t_exts set_amount set_texts].
    rewrite F2, F3. destruct (pk_eqb (t_mint s) v); [|lia].
    assert (withheld_of dx = withheld_of (t_exts d) + fee /\ confidential_of dx = confidential_of (t_exts d)) as [-> ->].
    { destruct (fee =? 0) eqn:E; [apply N.eqb_eq in E; subst; split; lia|]. now apply withheld_add_of. }
    lia.
Qed.
Lemma conserves_transfer_checked e p cpi ms src mnt dst auth signers amount dec expfee l l' :
  tok_transfer_checked e p cpi ms src mnt dst auth signers amount dec expfee l = Ok l' ->
  exists m l3, unpack_mint p (a_data (l mnt)) = Ok m /\ changes p ms l l3 /\ conserves p l l3 /\ (l' = l3 \/ run_hook e m ms amount l3 = Ok l').
Proof.
  intro H0. pose proof H0 as H. apply transfer_checked_inv in H.
  destruct H as (s & m & fee & s1 & Hs & _ & Hamt & Hsm & Hm & _ & _ & _ & _ & Ha & O1 & O2 & H).
  destruct H as [[_ ->]|(Hne & d & dx & l3 & Hd & _ & Hdm & _ & Hfe & _ & Hdx & W1 & W2 & Hn & Hh)].
  - exists m, l. split; [exact Hm|]. split; [apply changes_refl|]. split; [|auto]. apply conserves_same. intro; split; reflexivity.
  - exists m, l3. split; [exact Hm|].
    pose proof (authorize_debit_fields _ _ _ _ _ _ _ _ _ _ _ Ha) as (F1 & F2 & F3 & F4 & F5 & F6 & F7).
    pose proof (unpack_tok_inv _ _ _ Hs) as (Ds & _ & Xs). pose proof (unpack_tok_inv _ _ _ Hd) as (Dd & _ & Xd).
    split; [|split; [|auto]].
    + eapply changes_same; [|eapply move_native_same; exact Hn].
      unfold transfer_ledger. cbv zeta. rewrite (upd_other l src _ dst) by exact Hne.
      eapply (changes_two p ms l _ _ src (DTok (set_amount (t_amount s1 - amount) s1)) dst (DTok (set_texts dx (set_amount (t_amount d + (amount - fee)) d))) Hne).
      * apply set_data_ok; auto.
      * rewrite set_data_ok; auto; rewrite (upd_other l src _ dst) by exact Hne; auto.
      * rewrite Ds. rewrite (proj2 (pk_eqb_neq src dst) Hne) in Ha. eapply ch_debit; eauto.
      * rewrite Dd. apply ch_credit; auto; [|lia| |destruct (fee =? 0); [now subst|exact (settings_add _ _ _ Hdx)]].
        { destruct (fee =? 0); [now subst|]. eapply add_withheld_types'; eauto. }
        destruct (fee =? 0); [subst; apply N.le_refl|]. destruct (withheld_add_of _ _ _ Hdx) as [_ ->]. apply N.le_refl.
    + eapply (conserves_transfer_ledger p ms l src dst s s1 d dx amount fee); auto; [congruence|].
      eapply move_native_same; exact Hn.
Qed.
Lemma conserves_transfer_plain e p cpi ms src dst auth signers amount l l' :
  tok_transfer_plain e p cpi ms src dst auth signers amount l = Ok l' -> conserves p l l'.
Proof.
  intro H. apply transfer_plain_inv in H.
  destruct H as (s & s1 & Hs & _ & Hamt & Ha & O1 & O2 & H).
  destruct H as [[_ ->]|(Hne & d & Hd & _ & Hdm & W1 & W2 & _ & Hn)]; [apply conserves_same; intro; split; reflexivity|].
  pose proof (authorize_debit_fields _ _ _ _ _ _ _ _ _ _ _ Ha) as (F1 & F2 & F3 & F4 & F5 & F6 & F7).
  pose proof (unpack_tok_inv _ _ _ Hs) as (Ds & _ & Xs). pose proof (unpack_tok_inv _ _ _ Hd) as (Dd & _ & Xd).
  eapply conserves_then_same; [|eapply move_native_same; exact Hn].
  cbv zeta. rewrite (upd_other l src _ dst) by exact Hne.
  eapply (conserves_two p ms src (DTok (set_amount (t_amount s1 - amount) s1)) dst (DTok (set_amount (t_amount d + amount) d)) l _ _ Hne).
  - apply set_data_ok; auto.
  - rewrite set_data_ok; auto; rewrite (upd_other l src _ dst) by exact Hne; auto.
  - intro v. rewrite Ds, Dd. cbn [data_val data_cap t_mint set_amount]. rewrite F1, Hdm. unfold tok_val. cbn [t_amount t_exts set_amount].
    rewrite F3, F7. destruct (pk_eqb (t_mint s) v); lia.
Qed.
Lemma conserves_mint_to p ms mnt dst auth signers amount l l' :
  tok_mint_to p ms mnt dst auth signers amount l = Ok l' -> conserves p l l'.
Proof.
  intro H. apply mint_to_inv in H.
  destruct H as (d & m & Hd & _ & _ & Hdm & Hm & Hau & Hsg & _ & Hov & O1 & O2 & Hne & W1 & W2 & ->).
  pose proof (unpack_tok_inv _ _ _ Hd) as (Dd & _ & Xd). pose proof (unpack_mint_inv _ _ _ Hm) as (Dm & Im & _).
  assert (Hne' : dst <> mnt) by congruence.
  eapply (conserves_two p ms dst (DTok (set_amount (t_amount d + amount) d)) mnt (DMint (set_supply (m_supply m + amount) m)) l
            (upd l dst (with_data (DTok (set_amount (t_amount d + amount) d)) (l dst))) _ Hne').
  - apply set_data_ok; auto.
  - rewrite set_data_ok; auto; rewrite (upd_other l dst _ mnt) by exact Hne'; auto.
  - intro v. rewrite Dd, Dm. cbn. unfold tok_val. cbn. rewrite Hdm. destruct (pk_eqb mnt v); lia.
Qed.
Lemma conserves_burn p cpi ms src mnt auth signers amount l l' :
  tok_burn p cpi ms src mnt auth signers amount l = Ok l' -> conserves p l l'.
Proof.
  intro H. apply burn_inv in H.
  destruct H as (s & m & s1 & Hs & Hm & _ & _ & Hamt & Hsm & Hc & Hov & O1 & O2 & Hne & W1 & W2 & ->).
  pose proof (unpack_tok_inv _ _ _ Hs) as (Ds & _ & Xs). pose proof (unpack_mint_inv _ _ _ Hm) as (Dm & Im & _).
  assert (Hne' : src <> mnt) by congruence.
  assert (F : t_mint s1 = t_mint s /\ t_amount s1 = t_amount s /\ t_exts s1 = t_exts s).
  { destruct Hc as [[_ ->]|(_ & _ & Ha)]; [auto|]. apply authorize_debit_fields in Ha. tauto. }
  destruct F as (F1 & F2 & F3).
  eapply (conserves_two p ms src (DTok (set_amount (t_amount s1 - amount) s1)) mnt (DMint (set_supply (m_supply m - amount) m)) l
            (upd l src (with_data (DTok (set_amount (t_amount s1 - amount) s1)) (l src))) _ Hne').
  - apply set_data_ok; auto.
  - rewrite set_data_ok; auto; rewrite (upd_other l src _ mnt) by exact Hne'; auto.
  - intro v. rewrite Ds, Dm. cbn. unfold tok_val. cbn. rewrite F1, F2, F3, Hsm. destruct (pk_eqb mnt v); lia.
Qed.
Lemma conserves_tok_close p cpi ms acc dst auth signers l l' :
  tok_close p cpi ms acc dst auth signers l = Ok l' -> conserves p l l'.
Proof.
  unfold tok_close; intros H F1 F2 q v Nv. apply bind_ok in H; destruct H as [? [_ H]].
  destruct (a_data (l acc)) eqn:D; try discriminate.
  - apply bind_ok in H; destruct H as [[] [Hp H]]. apply guard_ok, negb_true_iff, pk_eqb_neq in Hp.
    apply bind_ok in H; destruct H as [m' [Hm H]]. apply unpack_mint_inv in Hm. destruct Hm as (X & I1 & _). inversion X; subst m'.
    apply bind_ok in H; destruct H as [au [Hau H]]. apply of_option_ok in Hau.
    apply bind_ok in H; destruct H as [[] [Hv H]].
    apply bind_ok in H; destruct H as [[] [Hz H]]. apply guard_ok, N.eqb_eq in Hz.
    apply bind_ok in H; destruct H as [l1 [Hl H]].
    eapply conserved_close; [exact Hl|exact H|]. intros _. rewrite D. cbn. destruct (pk_eqb acc v); lia.
  - apply bind_ok in H; destruct H as [t' [Ht H]]. apply bind_ok in H; destruct H as [[] [Hz H]].
    cbv zeta in H. apply bind_ok in H; destruct H as [[] [Hc H]].
    apply bind_ok in H; destruct H as [[] [Hcf H]]. apply bind_ok in H; destruct H as [[] [Hwh H]].
    apply bind_ok in H; destruct H as [l1 [Hl H]].
    eapply conserved_close; eauto. intros _. rewrite D. cbn. lia.
Qed.
Lemma conserves_init_ext p ms k x l l' : tok_init_ext p ms k x l = Ok l' -> conserves p l l'.
Proof.
  unfold tok_init_ext; intro H; inv_ok. eapply conserves_one; [exact H|]. intros F1 F2 O v _.
  eapply gain_uninit; [eassumption| |].
  - intro D. eapply F1; eauto. match goal with H : unpack_uninit_mint _ = _ |- _ => apply unpack_uninit_mint_inv in H; tauto end.
  - cbn. rewrite mint_withheld_app. unfold mint_withheld at 2. cbn [fold_right]. rewrite initializable_withheld by assumption. lia.
Qed.
Lemma conserves_init_mint e p ms k dec auth frz l l' : tok_init_mint e p ms k dec auth frz l = Ok l' -> conserves p l l'.
Proof.
  unfold tok_init_mint; intro H; inv_ok. eapply conserves_one; [exact H|]. intros F1 F2 O v _.
  eapply gain_uninit; [eassumption| |].
  - intro D. eapply F1; eauto. match goal with H : unpack_uninit_mint _ = _ |- _ => apply unpack_uninit_mint_inv in H; tauto end.
  - cbn. lia.
Qed.
Lemma conserves_write_exts e p ms k m x l l' :
  write_mint_exts e p ms k m x l = Ok l' -> a_data (l k) = DMint m -> mint_withheld x <= mint_withheld (m_exts m) -> conserves p l l'.
Proof.
  unfold write_mint_exts. intros H D W. inv_ok. eapply conserves_one; [exact H|]. intros _ _ _ v _. rewrite D. apply gain_mint; cbn; [exact W|lia].
Qed.
Lemma conserves_md_initialize e p ms md ua mnt ma n s u l l' :
  tok_md_initialize e p ms md ua mnt ma n s u l = Ok l' -> conserves p l l'.
Proof.
  unfold tok_md_initialize; intro H; inv_ok. subst. match goal with H : unpack_mint _ _ = Ok _ |- _ => apply unpack_mint_inv in H; destruct H as (D & I1 & _) end.
  eapply conserves_write_exts; [exact H|exact D|]. rewrite mint_withheld_app. unfold mint_withheld at 2. cbn. lia.
Qed.
Lemma conserves_md_update e p ms md ua f v l l' : tok_md_update e p ms md ua f v l = Ok l' -> conserves p l l'.
Proof.
  unfold tok_md_update; intro H. apply bind_ok in H; destruct H as [[m t] [Ha H]]. apply md_authorized_inv in Ha.
  destruct Ha as (-> & D & I1 & Hx & Hu & Hs). cbn [fst snd] in H.
  eapply conserves_write_exts; [exact H|exact D|]. rewrite replace_metadata_withheld. lia.
Qed.
Lemma conserves_md_remove e p ms md ua k i l l' : tok_md_remove e p ms md ua k i l = Ok l' -> conserves p l l'.
Proof.
  unfold tok_md_remove; intro H. apply bind_ok in H; destruct H as [[m t] [Ha H]]. apply md_authorized_inv in Ha.
  destruct Ha as (-> & D & I1 & Hx & Hu & Hs). cbn [fst snd] in H. apply bind_ok in H; destruct H as [[] [_ H]].
  eapply conserves_write_exts; [exact H|exact D|]. rewrite replace_metadata_withheld. lia.
Qed.
Lemma conserves_init_account e p ms k mnt owner imm l l' : tok_init_account e p ms k mnt owner imm l = Ok l' -> conserves p l l'.
Proof.
  unfold tok_init_account; intro H.
  apply bind_ok in H; destruct H as [m [Hm H]]. apply bind_ok in H; destruct H as [[] [Ho H]]. cbv zeta in H.
  apply bind_ok in H; destruct H as [[] [Hz H]]. apply guard_ok in Hz. apply bind_ok in H; destruct H as [[] [Hr H]].
  destruct (a_data (l k)) eqn:D; try discriminate.
  eapply conserves_one; [exact H|]. intros _ _ _ v Nv. rewrite D. unfold gain_ok. cbn.
  destruct (pk_eqb mnt v) eqn:E; [|lia]. apply pk_eqb_eq in E; subst v. rewrite Nv. unfold tok_val; cbn.
  destruct (fresh_val m imm p) as [-> ->]. lia.
Qed.
Lemma conserves_sync_native p ms k l l' : tok_sync_native p ms k l = Ok l' -> conserves p l l'.
Proof.
  unfold tok_sync_native; intro H; inv_ok. apply unpack_tok_inv in E. destruct E as (D & _ & X).
  eapply conserves_one; [exact H|]. intros _ F2 O v Nv. rewrite D. unfold gain_ok. cbn.
  destruct (pk_eqb (t_mint a) v) eqn:E; [|lia]. apply pk_eqb_eq in E; subst v.
  destruct (F2 k a O D) as [F _]. rewrite F in Nv by congruence. discriminate.
Qed.
Lemma conserves_init_multisig p ms k m l l' : tok_init_multisig p ms k m l = Ok l' -> conserves p l l'.
Proof.
  unfold tok_init_multisig; intro H; inv_ok. destruct (a_data (l k)) eqn:D; try discriminate. inv_ok.
  eapply conserves_one; [exact H|]. intros _ _ _ v _. rewrite D. unfold gain_ok; cbn. lia.
Qed.
Ltac tok_same H D := eapply conserves_one; [exact H|]; intros _ _ _ v _; rewrite D; apply gain_tok; [reflexivity|unfold tok_val; cbn; lia].
Lemma conserves_approve p ms cpi k d a s n l l' : tok_approve p ms cpi k d a s n l = Ok l' -> conserves p l l'.
Proof. unfold tok_approve; intro H; inv_ok. apply unpack_tok_inv in E. destruct E as (D & _ & X). tok_same H D. Qed.
Lemma conserves_revoke p ms k a s l l' : tok_revoke p ms k a s l = Ok l' -> conserves p l l'.
Proof. unfold tok_revoke; intro H; inv_ok. apply unpack_tok_inv in E. destruct E as (D & _ & X). tok_same H D. Qed.
Lemma conserves_set_authority p ms cpi k a s ty new l l' : tok_set_authority p ms cpi k a s ty new l = Ok l' -> conserves p l l'.
Proof.
  unfold tok_set_authority; intro H. destruct (a_data (l k)) eqn:D; try discriminate.
  - apply bind_ok in H; destruct H as [m' [Hm H]]. apply unpack_mint_inv in Hm. destruct Hm as (X & I1 & _). inversion X; subst m'.
    destruct ty; try discriminate; inv_ok; (eapply conserves_one; [exact H|]; intros _ _ _ v _; rewrite D; apply gain_mint; cbn; lia).
  - apply bind_ok in H; destruct H as [t' [Ht H]]. apply unpack_tok_inv in Ht. destruct Ht as (Y & _ & X). inversion Y; subst t'.
    apply bind_ok in H; destruct H as [[] [_ H]].
    destruct ty; try discriminate; inv_ok; (eapply conserves_one; [exact H|]; intros _ _ _ v _; rewrite D; apply gain_tok);
      try reflexivity; try (unfold tok_val; cbn; lia); destruct (t_native t); try reflexivity; unfold tok_val; cbn; lia.
Qed.
Lemma conserves_freeze p ms k mnt a s f l l' : tok_freeze p ms k mnt a s f l = Ok l' -> conserves p l l'.
Proof. unfold tok_freeze; intro H; inv_ok. apply unpack_tok_inv in E. destruct E as (D & _ & X). tok_same H D. Qed.
Lemma conserves_update_ext e p ms k a s x l l' : tok_update_ext e p ms k a s x l = Ok l' -> conserves p l l'.
Proof.
  unfold tok_update_ext; intro H; inv_ok. match goal with H : unpack_mint _ _ = Ok _ |- _ => apply unpack_mint_inv in H; destruct H as (D & I1 & _) end.
  eapply conserves_write_exts; [exact H|exact D|]. erewrite replace_ext_withheld by eassumption. lia.
Qed.
Lemma conserves_update_acct_exts p ms k a s x l l' : tok_update_acct_exts p ms k a s x l = Ok l' -> conserves p l l'.
Proof.
  unfold tok_update_acct_exts; intro H; inv_ok. match goal with H : unpack_tok _ _ = Ok _ |- _ => apply unpack_tok_inv in H; destruct H as (D & I1 & X) end.
  eapply conserves_one; [exact H|]. intros _ _ _ v _. rewrite D. apply gain_tok; [reflexivity|]. unfold tok_val; cbn. lia.
Qed.
Lemma conserves_confidential p ms k mnt a s i n l l' : tok_confidential p ms k mnt a s i n l = Ok l' -> conserves p l l'.
Proof.
  unfold tok_confidential; intro H; inv_ok. match goal with H : unpack_tok _ _ = Ok _ |- _ => apply unpack_tok_inv in H; destruct H as (D & I1 & X) end.
  match goal with H : conf_payload _ = Some ?c |- _ => rename c into cc; pose proof (fun n => set_confidential_of n _ _ H) as SC end.
  destruct i; inv_ok; (eapply conserves_one; [exact H|]; intros _ _ _ v _; rewrite D; apply gain_tok; [reflexivity|]; unfold tok_val; cbn).
  - destruct (SC (cc + n)) as [-> E']. lia.
  - destruct (SC (cc - n)) as [-> E']. lia.
Qed.
Lemma conserves_confidential_transfer e p ms src mnt dst a s n l l' :
  tok_confidential_transfer e p ms src mnt dst a s n l = Ok l' ->
  exists m l3, unpack_mint p (a_data (l mnt)) = Ok m /\ changes p ms l l3 /\ conserves p l l3 /\ (l' = l3 \/ run_hook e m ms n l3 = Ok l').
Proof.
  unfold tok_confidential_transfer; intro H; inv_ok.
  match goal with Hs : unpack_tok _ (a_data (l src)) = Ok ?t, Hd : unpack_tok _ (a_data (l dst)) = Ok ?d, Hm : unpack_mint _ _ = Ok ?m |- _ =>
    apply unpack_tok_inv in Hs; destruct Hs as (Ds & _ & Xs); apply unpack_tok_inv in Hd; destruct Hd as (Dd & _ & Xd);
    exists m; eexists; split; [exact Hm|]; split; [|split; [|right; exact H]]; rename t into ts; rename d into td end.
  - match goal with H : validate_owner _ _ _ _ _ _ = _ |- _ => apply validate_owner_inv in H; destruct H as [? ?] end.
    eapply changes_two; eauto.
    + rewrite Ds. apply ch_owner; auto. left; cbn; apply set_confidential_types.
    + rewrite Dd. eapply ch_tok; try reflexivity; auto; [apply state_kept_calm; [reflexivity| |apply settings_conf|apply N.le_refl|apply N.le_refl]|]; [cbn [t_exts set_texts]; match goal with H : conf_payload (t_exts ?d) = Some ?c |- confidential_of (t_exts ?d) <= _ => destruct (set_confidential_of (c + n) _ _ H) as [_ SCV]; lia end|]. apply tc_harmless; cbn; auto; [left; reflexivity|lia|apply set_confidential_types].
  - eapply conserves_two; eauto. intro v. rewrite Ds, Dd. cbn [data_val data_cap t_mint set_texts].
    match goal with H : conf_payload (t_exts ts) = Some ?c, H' : conf_payload (t_exts td) = Some ?c' |- _ =>
      destruct (set_confidential_of (c - n) _ _ H) as [A1 A2]; destruct (set_confidential_of (c' + n) _ _ H') as [B1 B2] end.
    unfold tok_val; cbn. rewrite A1, B1.
    repeat match goal with H : t_mint _ = mnt |- _ => rewrite H; clear H end. destruct (pk_eqb mnt v); lia.
Qed.
Lemma conserves_harvest p ms m s l l' : tok_harvest p ms m s l = Ok l' -> conserves p l l'.
Proof.
  unfold tok_harvest; intro H; inv_ok.
  match goal with Hs : unpack_tok _ _ = Ok ?t, Hm : unpack_mint _ _ = Ok ?mm |- _ => rename t into ts; rename mm into mi;
    apply unpack_tok_inv in Hs; destruct Hs as (Ds & _ & Xs); apply unpack_mint_inv in Hm; destruct Hm as (Dm & Im & _) end.
  assert (Hne : s <> m) by (intro; subst; congruence).
  eapply conserves_two; [exact Hne|eassumption|eassumption|]. intro v. rewrite Ds, Dm. cbn. unfold tok_val; cbn.
  destruct (clear_withheld_of (t_exts ts)) as [-> ->].
  match goal with H : ext_fee mi = Some ?c |- _ => pose proof (set_fee_withheld_of (fc_withheld c + withheld_of (t_exts ts)) _ _ H) end.
  match goal with H : t_mint ts = m |- _ => rewrite H end. destruct (pk_eqb m v); lia.
Qed.
Lemma conserves_withdraw_withheld p ms m d a s l l' : tok_withdraw_withheld p ms m d a s l = Ok l' -> conserves p l l'.
Proof.
  unfold tok_withdraw_withheld; intro H; inv_ok.
  match goal with Hs : unpack_tok _ _ = Ok ?t, Hm : unpack_mint _ _ = Ok ?mm |- _ => rename t into ts; rename mm into mi;
    apply unpack_tok_inv in Hs; destruct Hs as (Ds & _ & Xs); apply unpack_mint_inv in Hm; destruct Hm as (Dm & Im & _) end.
  assert (Hne : d <> m) by (intro; subst; congruence).
  eapply conserves_two; [exact Hne|eassumption|eassumption|]. intro v. rewrite Ds, Dm. cbn. unfold tok_val; cbn.
  match goal with H : ext_fee mi = Some ?c |- _ => pose proof (set_fee_withheld_of 0 _ _ H) end.
  match goal with H : t_mint ts = m |- _ => rewrite H end. destruct (pk_eqb m v); lia.
Qed.
Lemma conserves_withdraw_withheld_from p ms m d a x s l l' : tok_withdraw_withheld_from p ms m d a x s l = Ok l' -> conserves p l l'.
Proof.
  unfold tok_withdraw_withheld_from; intro H; inv_ok.
  match goal with Hs : unpack_tok _ (a_data (l x)) = Ok ?t, Hd : unpack_tok _ (a_data (_ d)) = Ok ?t' |- _ => rename t into ts; rename t' into td;
    apply unpack_tok_inv in Hs; destruct Hs as (Ds & _ & Xs); apply unpack_tok_inv in Hd; destruct Hd as (Dd & _ & Xd) end.
  match goal with H1 : set_data _ _ x _ _ = Ok _ |- _ => pose proof H1 as H1'; apply set_data_inv in H1'; destruct H1' as (W1 & O1 & El) end.
  pose proof (clear_withheld_of (t_exts ts)) as [C1 C2].
  repeat match goal with H : t_mint _ = m |- _ => revert H end. intros M1 M2.
  destruct (pk_dec x d) as [<-|Hne].
  - pose proof H as H'. apply set_data_inv in H'. destruct H' as (W2 & O2 & ->). subst. rewrite upd_same in *. cbn [a_data a_owner with_data] in *.
    inversion Dd; subst td. cbn [t_mint set_texts] in *.
    eapply (conserves_then_same _ l (upd l x (with_data (DTok (set_amount (t_amount ts + withheld_of (t_exts ts)) (set_texts (clear_withheld (t_exts ts)) ts))) (l x)))).
    + eapply (conserves_one _ ms x _ l); [apply set_data_ok; auto|]. intros _ _ _ v _. rewrite Ds. apply gain_tok; [reflexivity|].
      unfold tok_val; cbn. rewrite C1, C2. lia.
    + intro k. destruct (pk_dec x k) as [<-|Hk]; [rewrite !upd_same; split; reflexivity|rewrite !upd_other by exact Hk; split; reflexivity].
  - rewrite El, upd_other in Dd by exact Hne. eapply conserves_two; [exact Hne|eassumption|eassumption|].
    intro v. rewrite Ds, Dd. cbn. unfold tok_val; cbn. rewrite C1, C2.
    repeat match goal with H : t_mint _ = m |- _ => rewrite H; clear H end. destruct (pk_eqb m v); lia.
Qed.
Lemma conserves_withdraw_excess e p ms k d a s l l' : tok_withdraw_excess e p ms k d a s l = Ok l' -> conserves p l l'.
Proof.
  unfold tok_withdraw_excess; intro H. apply bind_ok in H; destruct H as [? [_ H]]. apply bind_ok in H; destruct H as [? [_ H]].
  apply bind_ok in H; destruct H as [? [_ H]]. apply conserves_same. eapply move_lamports_same; eauto.
Qed.

Theorem tok_exec_step e p cpi ms ix l l' :
  tok_exec e p cpi ms ix l = Ok l' ->
  exists l3, changes p ms l l3 /\ conserves p l l3 /\
    (l' = l3 \/ exists m mnt n, unpack_mint p (a_data (l mnt)) = Ok m /\ run_hook e m ms n l3 = Ok l').
Proof.
  unfold tok_exec; intro H.
  destruct ix; destruct (map i_key ms) as [|k1 [|k2 [|k3 [|k4 rest]]]]; try discriminate H; inv_ok;
    try (exists l'; split; [|split; [|left; reflexivity]];
         [ first [ eapply changes_transfer_plain; eassumption | eapply changes_mint_to; eassumption
               | eapply changes_burn; eassumption | eapply changes_tok_close; eassumption
               | eapply changes_init_ext; eassumption | eapply changes_init_mint; eassumption
               | eapply changes_md_initialize; eassumption | eapply changes_md_update; eassumption
               | eapply changes_md_remove; eassumption | eapply changes_init_account; eassumption
               | eapply changes_sync_native; eassumption | eapply changes_init_multisig; eassumption
               | eapply changes_approve; eassumption | eapply changes_revoke; eassumption
               | eapply changes_set_authority; eassumption | eapply changes_freeze; eassumption
               | eapply changes_update_ext; eassumption | eapply changes_update_acct_exts; eassumption
               | eapply changes_confidential; eassumption | eapply changes_harvest; eassumption
               | eapply changes_withdraw_withheld; eassumption
               | eapply changes_withdraw_withheld_from; eassumption
               | eapply changes_withdraw_excess; eassumption ]
         | first [ eapply conserves_transfer_plain; eassumption | eapply conserves_mint_to; eassumption
               | eapply conserves_burn; eassumption | eapply conserves_tok_close; eassumption
               | eapply conserves_init_ext; eassumption | eapply conserves_init_mint; eassumption
               | eapply conserves_md_initialize; eassumption | eapply conserves_md_update; eassumption
               | eapply conserves_md_remove; eassumption | eapply conserves_init_account; eassumption
               | eapply conserves_sync_native; eassumption | eapply conserves_init_multisig; eassumption
               | eapply conserves_approve; eassumption | eapply conserves_revoke; eassumption
               | eapply conserves_set_authority; eassumption | eapply conserves_freeze; eassumption
               | eapply conserves_update_ext; eassumption | eapply conserves_update_acct_exts; eassumption
               | eapply conserves_confidential; eassumption | eapply conserves_harvest; eassumption
               | eapply conserves_withdraw_withheld; eassumption
               | eapply conserves_withdraw_withheld_from; eassumption
               | eapply conserves_withdraw_excess; eassumption ] ]).
  all: first [apply conserves_transfer_checked in H | apply conserves_confidential_transfer in H]; destruct H as (m & l3 & Hm & Hf & Hc & H);
    exists l3; split; [exact Hf|]; split; [exact Hc|]; destruct H as [H|H]; [left; exact H|right; eauto].
Qed.
