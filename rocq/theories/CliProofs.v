(** * CliProofs.v — lemmas about transactions and the command line client. *)
From Verif Require Import Base Codec State Pda TokenProg Cpi Ata Meta Processor Builders Cli Tac PdaProofs ProcProofs Spec HistorySpec CliSpec CloseProofs SpecLemmas.

(** ** Privileges *)
Lemma raised_keys e payer ixs ms : map i_key (raised e payer ixs ms) = map i_key ms.
Proof. unfold raised. rewrite map_map. reflexivity. Qed.
Lemma raised_keys_are e payer ixs ms ks : keys_are ms ks -> keys_are (raised e payer ixs ms) ks.
Proof. intros [more H]. exists more. rewrite raised_keys. exact H. Qed.
Lemma raised_in e payer ixs ms k : In k (map i_key ms) -> In (mkInfo k (must_sign e payer ixs k) (may_write e payer ixs k)) (raised e payer ixs ms).
Proof.
  intro H. apply in_map_iff in H. destruct H as [m [<- Hm]]. unfold raised. apply in_map_iff. exists m. split; [reflexivity|exact Hm].
Qed.
Lemma raised_writable e payer ixs i k :
  In (TxTokenWrap i) ixs -> writable (tx_metas i) k -> writable (raised e payer ixs (tx_metas i)) k.
Proof.
  intros Hi (m & Hm & Hk & Hw). exists (mkInfo k (must_sign e payer ixs k) (may_write e payer ixs k)). split.
  - apply raised_in. rewrite <- Hk. apply in_map. exact Hm.
  - split; [reflexivity|]. cbn [i_writable]. unfold may_write. apply orb_true_iff. right. apply existsb_exists. exists (TxTokenWrap i).
    split; [exact Hi|]. cbn [ix_accounts]. apply is_wr_In. exists m. split; [exact Hm|split; [exact Hk|exact Hw]].
Qed.
Lemma raised_signed e payer ixs i k :
  In (TxTokenWrap i) ixs -> signed (tx_metas i) k -> signed (raised e payer ixs (tx_metas i)) k.
Proof.
  intros Hi (m & Hm & Hk & Hw). exists (mkInfo k (must_sign e payer ixs k) (may_write e payer ixs k)). split.
  - apply raised_in. rewrite <- Hk. apply in_map. exact Hm.
  - split; [reflexivity|]. cbn [i_signer]. unfold must_sign. apply orb_true_iff. right. apply existsb_exists. exists (TxTokenWrap i).
    split; [exact Hi|]. cbn [ix_accounts]. apply is_sig_In. exists m. split; [exact Hm|split; [exact Hk|exact Hw]].
Qed.
Lemma raised_signed_inv e payer ixs ms k : signed (raised e payer ixs ms) k -> must_sign e payer ixs k = true /\ In k (map i_key ms).
Proof.
  intros (m & Hm & Hk & Hs). unfold raised in Hm. apply in_map_iff in Hm. destruct Hm as [x [Hx Hin]]. subst m. cbn in Hk, Hs. subst k.
  split; [exact Hs|apply in_map; exact Hin].
Qed.
Lemma must_sign_key e payer ixs k : must_sign e payer ixs k = true -> In k (all_keys e payer ixs).
Proof.
  unfold must_sign, all_keys. intro H. apply orb_true_iff in H. destruct H as [H|H].
  - apply pk_eqb_eq in H. left. symmetry. exact H.
  - right. apply existsb_exists in H. destruct H as [ix [Hi Hs]]. apply in_flat_map. exists ix. split; [exact Hi|].
    apply is_sig_In in Hs. destruct Hs as [m [Hm [Hk _]]]. rewrite <- Hk. apply in_map. exact Hm.
Qed.

(** ** Transfers of lamports *)
Lemma sys_transfer_live from to n l :
  a_owner (l from) = system_id -> data_is_empty (a_data (l from)) = true -> n <= a_lamports (l from) -> from <> to -> a_lamports (l to) + n < two64 ->
  exists l', sys_transfer from to n l = Ok l' /\
    l' from = mkAcc (a_lamports (l from) - n) (a_data (l from)) (a_owner (l from)) /\
    l' to = mkAcc (a_lamports (l to) + n) (a_data (l to)) (a_owner (l to)) /\
    forall k, k <> from -> k <> to -> l' k = l k.
Proof.
  intros Ho Hd Hn Hne Hb. unfold sys_transfer.
  rewrite bind_guard_true by exact Hd. rewrite bind_guard_true by (apply N.leb_le; exact Hn). rewrite bind_guard_true by (rewrite Ho; apply pk_eqb_refl).
  cbv zeta. set (l1 := upd l from (with_lamports (a_lamports (l from) - n) (l from))).
  assert (E : l1 to = l to) by (apply upd_other; exact Hne). rewrite E.
  rewrite bind_guard_true by (unfold u64_ok; apply N.ltb_lt; exact Hb).
  eexists. split; [reflexivity|]. split; [|split].
  - rewrite upd_other by (intro Hc; apply Hne; symmetry; exact Hc). unfold l1. rewrite upd_same. reflexivity.
  - rewrite upd_same. reflexivity.
  - intros k Hk1 Hk2. rewrite upd_other by (intro Hc; apply Hk2; symmetry; exact Hc). unfold l1. apply upd_other. intro Hc. apply Hk1. symmetry. exact Hc.
Qed.
Lemma sys_transfer_inv from to n l l' :
  sys_transfer from to n l = Ok l' -> a_owner (l from) = system_id /\ data_is_empty (a_data (l from)) = true /\
  forall k, a_data (l' k) = a_data (l k) /\ a_owner (l' k) = a_owner (l k) /\ (k <> from -> a_lamports (l k) <= a_lamports (l' k)).
Proof.
  unfold sys_transfer. intro H. apply bind_ok in H. destruct H as ([] & E1 & H). apply bind_ok in H. destruct H as ([] & E2 & H).
  apply bind_ok in H. destruct H as ([] & E3 & H). cbv zeta in H. apply bind_ok in H. destruct H as ([] & E4 & H).
  apply guard_ok in E1. apply guard_ok in E3. apply pk_eqb_eq in E3. injection H as <-. split; [exact E3|split; [exact E1|]].
  intro k. unfold upd. destruct (pk_eqb to k) eqn:Et.
  - apply pk_eqb_eq in Et. subst k. cbn [with_lamports a_data a_owner a_lamports]. destruct (pk_eqb from to) eqn:Ef.
    + apply pk_eqb_eq in Ef. subst to. cbn [with_lamports a_data a_owner a_lamports]. split; [reflexivity|split; [reflexivity|]]. intro Hc. contradiction.
    + split; [reflexivity|split; [reflexivity|]]. intros _. lia.
  - destruct (pk_eqb from k) eqn:Ef.
    + apply pk_eqb_eq in Ef. subst k. cbn [with_lamports a_data a_owner a_lamports]. split; [reflexivity|split; [reflexivity|]]. intro Hc. contradiction.
    + split; [reflexivity|split; [reflexivity|]]. intros _. lia.
Qed.
(** Lamports move, everything else stays: a change any program could make. *)
Lemma lamports_world l l' from :
  a_owner (l from) = system_id ->
  (forall k, a_data (l' k) = a_data (l k) /\ a_owner (l' k) = a_owner (l k) /\ (k <> from -> a_lamports (l k) <= a_lamports (l' k))) ->
  world_change l l'.
Proof.
  intros Ho H k. destruct (H k) as (Hd & Hw & Hl).
  split; [|split; [|split; [|split]]].
  - intro Hr. split; [exact Hd|split; [exact Hw|]]. apply Hl. intro Hc. subst k. rewrite Ho in Hr. destruct Hr as [Hr|[Hr|Hr]]; discriminate Hr.
  - intros _. split; [exact Hd|exact Hw].
  - intros Hn Hr. rewrite Hw in Hr. contradiction.
  - intros _. left. split; [exact Hd|exact Hw].
  - intros _. split; [exact Hd|exact Hw].
Qed.

(** ** Transactions keep the ledger reachable *)
Lemma reach_step e0 a l l' : reachable e0 l -> step e0 a l l' -> reachable e0 l'.
Proof. intros [past H] Hs. exists (l :: past). exact (h_step e0 past l a l' H Hs). Qed.
Lemma charge_world payer fee l : a_owner (l payer) = system_id -> world_change l (charge payer fee l).
Proof.
  intro Ho. apply (lamports_world l _ payer Ho). intro k. unfold charge, upd. destruct (pk_eqb payer k) eqn:E.
  - apply pk_eqb_eq in E. subst k. cbn. split; [reflexivity|split; [reflexivity|]]. intro Hc. contradiction.
  - split; [reflexivity|split; [reflexivity|]]. intros _. lia.
Qed.
Lemma run_ix_reach e0 e payer ixs ix l l' :
  reachable e0 l -> lawful e0 e -> (forall k, must_sign e payer ixs k = true -> is_tw_pda k = false) ->
  match ix with TxTransfer _ _ _ => True | TxAssociated _ _ _ p => spl_or_t22 p | TxTokenWrap i => tx_prog i = tw_id end ->
  run_ix e payer ixs ix l = Ok l' -> reachable e0 l'.
Proof.
  intros R L S P H. destruct ix as [from to n|pay wal mnt p|i].
  - cbn [run_ix] in H. destruct (sys_transfer_inv _ _ _ _ _ H) as (Ho & _ & Hk).
    apply (reach_step e0 AWorld l l' R). apply st_world. exact (lamports_world l l' from Ho Hk).
  - cbn [run_ix] in H. unfold ata_create_paid in H. apply bind_ok in H. destruct H as ([] & E1 & H). apply bind_ok in H. destruct H as (m & E2 & H).
    cbv zeta in H. apply bind_ok in H. destruct H as (l1 & E3 & H).
    assert (R1 : reachable e0 l1).
    { destruct (_ =? 0) in E3.
      - injection E3 as <-. exact R.
      - destruct (sys_transfer_inv _ _ _ _ _ E3) as (Ho & _ & Hk).
        apply (reach_step e0 AWorld l l1 R). apply st_world. exact (lamports_world l l1 pay Ho Hk). }
    apply (reach_step e0 (AAssociated e p wal mnt) l1 l' R1). apply st_associated; [exact L|exact P|exact H].
  - cbn [run_ix] in H. rewrite P in H. apply (reach_step e0 (ATokenWrap e (raised e payer ixs (tx_metas i)) (tx_data i)) l l' R).
    apply st_token_wrap; [exact L| |exact H].
    intros k Hk. apply raised_signed_inv in Hk. apply S. exact (proj1 Hk).
Qed.
Lemma run_ixs_reach e0 e payer all ixs : forall l l',
  reachable e0 l -> lawful e0 e -> (forall k, must_sign e payer all k = true -> is_tw_pda k = false) ->
  (forall ix, In ix ixs -> match ix with TxTransfer _ _ _ => True | TxAssociated _ _ _ p => spl_or_t22 p | TxTokenWrap i => tx_prog i = tw_id end) ->
  run_ixs e payer all ixs l = Ok l' -> reachable e0 l'.
Proof.
  induction ixs as [|ix r IH]; intros l l' R L S P H.
  - cbn [run_ixs] in H. injection H as <-. exact R.
  - cbn [run_ixs] in H. apply bind_ok in H. destruct H as (l1 & E & H).
    apply (IH l1 l'); [|exact L|exact S| |exact H].
    + apply (run_ix_reach e0 e payer all ix l l1 R L S); [|exact E]. apply P. left. reflexivity.
    + intros x Hx. apply P. right. exact Hx.
Qed.
(** What the signature check says. *)
Lemma signatures_cover e t :
  forallb (fun k => negb (must_sign e (tr_payer t) (tr_ixs t) k) || pk_mem k (tr_signed t)) (all_keys e (tr_payer t) (tr_ixs t)) = true <->
  forall k, must_sign e (tr_payer t) (tr_ixs t) k = true -> In k (tr_signed t).
Proof.
  rewrite forallb_forall. split.
  - intros H k Hk. specialize (H k (must_sign_key e _ _ k Hk)). rewrite Hk in H. cbn in H. apply pk_mem_In. exact H.
  - intros H k _. destruct (must_sign e (tr_payer t) (tr_ixs t) k) eqn:E; [|reflexivity]. cbn. apply pk_mem_In. apply H. exact E.
Qed.
(** The four outcomes of a transaction. *)
Lemma send_cases e fee t l l' r :
  send e fee t l = (l', r) ->
  (l' = l /\ exists err, r = Err err) \/
  (a_owner (l (tr_payer t)) = system_id /\ data_is_empty (a_data (l (tr_payer t))) = true /\ fee <= a_lamports (l (tr_payer t)) /\
   (forall k, must_sign e (tr_payer t) (tr_ixs t) k = true -> In k (tr_signed t)) /\
   ((l' = charge (tr_payer t) fee l /\ exists err, r = Err err) \/
    (r = Ok tt /\ run_ixs e (tr_payer t) (tr_ixs t) (tr_ixs t) (charge (tr_payer t) fee l) = Ok l'))).
Proof.
  unfold send. cbv zeta. intro H.
  destruct (forallb _ (all_keys e (tr_payer t) (tr_ixs t))) eqn:Es; cbn [negb] in H.
  2:{ injection H as <- <-. left. split; [reflexivity|eexists; reflexivity]. }
  destruct (pk_eqb (a_owner (l (tr_payer t))) system_id && _ && _ && _) eqn:Ep; cbn [negb] in H.
  2:{ injection H as <- <-. left. split; [reflexivity|eexists; reflexivity]. }
  right. apply andb_true_iff in Ep. destruct Ep as [Ep _]. apply andb_true_iff in Ep. destruct Ep as [Ep Ef]. apply andb_true_iff in Ep. destruct Ep as [Eo Ed].
  split; [apply pk_eqb_eq; exact Eo|]. split; [exact Ed|]. split; [apply N.leb_le; exact Ef|]. split; [apply signatures_cover; exact Es|].
  destruct (run_ixs e (tr_payer t) (tr_ixs t) (tr_ixs t) (charge (tr_payer t) fee l)) as [l2|err] eqn:Er.
  - destruct (rents_ok e (tr_payer t) (tr_ixs t) (charge (tr_payer t) fee l) l2).
    + injection H as <- <-. right. split; reflexivity.
    + injection H as <- <-. left. split; [reflexivity|eexists; reflexivity].
  - injection H as <- <-. left. split; [reflexivity|eexists; reflexivity].
Qed.
Lemma charge_paid payer fee l : fee <= a_lamports (l payer) -> paid l (charge payer fee l) payer fee /\ only_changed l (charge payer fee l) [payer].
Proof.
  intro H. unfold charge. split.
  - unfold paid, lamports. rewrite upd_same. cbn. split; [lia|split; reflexivity].
  - intros k Hk. apply upd_other. intro Hc. apply Hk. left. exact Hc.
Qed.
(** Sending a transaction that has all signatures, whose payer affords the fee, whose instructions run and leave rent paid. *)
Lemma send_live e fee payer ixs sigs l l2 :
  (forall k, must_sign e payer ixs k = true -> In k sigs) ->
  a_owner (l payer) = system_id -> a_data (l payer) = DRaw [] -> fee + e_rent e 0 <= a_lamports (l payer) ->
  run_ixs e payer ixs ixs (charge payer fee l) = Ok l2 -> rents_ok e payer ixs (charge payer fee l) l2 = true ->
  send e fee (mkTx payer ixs sigs) l = (l2, Ok tt).
Proof.
  intros Hs Ho Hd Hf Hr Hre. unfold send. cbn [tr_payer tr_ixs tr_signed]. cbv zeta.
  pose proof (proj2 (signatures_cover e (mkTx payer ixs sigs)) Hs) as Hc. cbn [tr_payer tr_ixs tr_signed] in Hc. rewrite Hc. cbn [negb].
  rewrite Ho, pk_eqb_refl, Hd. cbn [data_is_empty data_len length N.of_nat N.eqb andb].
  replace (fee <=? a_lamports (l payer)) with true by (symmetry; apply N.leb_le; lia). cbn [andb].
  assert (Hro : rent_ok e (l payer) (charge payer fee l payer) = true).
  { unfold rent_ok, charge. rewrite upd_same. cbn [with_lamports a_lamports a_data]. rewrite Hd. cbn [data_len length N.of_nat].
    replace (e_rent e 0 <=? a_lamports (l payer) - fee) with true by (symmetry; apply N.leb_le; lia). rewrite orb_true_r. reflexivity. }
  rewrite Hro. cbn [negb]. rewrite Hr, Hre. reflexivity.
Qed.
(** The rent check, address by address. *)
Lemma rents_ok_intro e payer ixs l l' :
  (forall k, may_write e payer ixs k = true -> rent_ok e (l k) (l' k) = true) -> rents_ok e payer ixs l l' = true.
Proof.
  intro H. unfold rents_ok. apply forallb_forall. intros k _. destruct (may_write e payer ixs k) eqn:E; [|reflexivity]. cbn. apply H. exact E.
Qed.
Lemma rent_ok_enough e a b : e_rent e (data_len (a_data b)) <= a_lamports b -> rent_ok e a b = true.
Proof. intro H. unfold rent_ok. apply N.leb_le in H. rewrite H, orb_true_r. reflexivity. Qed.
Lemma rent_ok_same e a b : data_len (a_data b) = data_len (a_data a) -> a_lamports b = a_lamports a -> rent_ok e a b = true.
Proof.
  intros Hd Hl. unfold rent_ok. rewrite Hd, Hl, N.eqb_refl.
  destruct (a_lamports a =? 0) eqn:E0; [reflexivity|]. destruct (e_rent e (data_len (a_data a)) <=? a_lamports a) eqn:E1; [reflexivity|].
  cbn [orb]. apply N.eqb_neq in E0. apply N.leb_gt in E1. 
  replace (0 <? a_lamports a) with true by (symmetry; apply N.ltb_lt; lia).
  replace (a_lamports a <? e_rent e (data_len (a_data a))) with true by (symmetry; apply N.ltb_lt; exact E1).
  replace (a_lamports a <=? a_lamports a) with true by (symmetry; apply N.leb_le; lia). reflexivity.
Qed.
Lemma run_ixs_app e payer all a b l : run_ixs e payer all (a ++ b) l = bind (run_ixs e payer all a l) (run_ixs e payer all b).
Proof.
  revert l. induction a as [|x r IH]; intro l; [reflexivity|]. cbn [app run_ixs]. destruct (run_ix e payer all x l) as [l1|err]; [|reflexivity].
  cbn [bind]. apply IH.
Qed.
(** Topping up an address. *)
Lemma run_fund e pay all payer k n l :
  a_owner (l payer) = system_id -> a_data (l payer) = DRaw [] -> n <= a_lamports (l payer) -> payer <> k -> a_lamports (l k) + n < two64 ->
  exists l', run_ixs e pay all (fund payer k n) l = Ok l' /\
    l' payer = mkAcc (a_lamports (l payer) - n) (DRaw []) system_id /\
    l' k = mkAcc (a_lamports (l k) + n) (a_data (l k)) (a_owner (l k)) /\
    forall x, x <> payer -> x <> k -> l' x = l x.
Proof.
  intros Ho Hd Hn Hne Hb. unfold fund. destruct (0 <? n) eqn:E.
  - destruct (sys_transfer_live payer k n l Ho) as (l' & H1 & H2 & H3 & H4); [rewrite Hd; reflexivity|exact Hn|exact Hne|exact Hb|].
    exists l'. cbn [run_ixs run_ix]. rewrite H1. cbn [bind]. rewrite Ho, Hd in H2. split; [reflexivity|split; [exact H2|split; [exact H3|exact H4]]].
  - apply N.ltb_ge in E. assert (n = 0) by lia. subst n. exists l. split; [reflexivity|]. rewrite N.sub_0_r, N.add_0_r.
    split; [rewrite <- Ho, <- Hd; destruct (l payer); reflexivity|]. split; [destruct (l k); reflexivity|]. intros x _ _. reflexivity.
Qed.
