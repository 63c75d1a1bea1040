(** * CliSign.v — lemmas about signatures, and about transactions of one token-wrap instruction. *)
From Verif Require Import Base Codec State Pda TokenProg Cpi Ata Meta Processor Builders Cli Tac PdaProofs ProcProofs Spec HistorySpec CliSpec CloseProofs SpecLemmas
  CliProofs.

Lemma signs_fold k ss : forall acc,
  (acc = true \/ exists s, In s ss /\ sg_key s = k) -> (forall s, In s ss -> sg_key s = k -> sg_signs s = true) ->
  fold_left (fun a s => if pk_eqb (sg_key s) k then sg_signs s else a) ss acc = true.
Proof.
  induction ss as [|s r IH]; intros acc H A.
  - destruct H as [H|(s & [] & _)]. exact H.
  - cbn [fold_left]. apply IH.
    + destruct (pk_eqb (sg_key s) k) eqn:E.
      * left. apply A; [left; reflexivity|apply pk_eqb_eq; exact E].
      * destruct H as [H|(x & [<-|Hx] & Hk)]; [left; exact H| |right; exists x; split; [exact Hx|exact Hk]].
        rewrite <- Hk, pk_eqb_refl in E. discriminate E.
    + intros x Hx. apply A. right. exact Hx.
Qed.
Lemma signs_later k a b :
  (exists s, In s b /\ sg_key s = k) -> (forall s, In s b -> sg_key s = k -> sg_signs s = true) -> signs (a ++ b) k = true.
Proof. intros H A. unfold signs. rewrite fold_left_app. apply signs_fold; [right; exact H|exact A]. Qed.
Lemma signs_all k ss :
  (exists s, In s ss /\ sg_key s = k) -> (forall s, In s ss -> sg_key s = k -> sg_signs s = true) -> signs ss k = true.
Proof. intros H A. exact (signs_later k [] ss H A). Qed.

(** ** One token-wrap instruction *)
Lemma one_signs e payer i k : must_sign e payer [TxTokenWrap i] k = true <-> k = payer \/ signed (tx_metas i) k.
Proof.
  unfold must_sign. cbn [existsb ix_accounts]. rewrite orb_false_r, orb_true_iff, pk_eqb_eq. split; (intros [H|H]; [left; exact H|right]).
  - apply is_sig_In in H. destruct H as (m & H1 & H2 & H3). exists m. split; [exact H1|split; [exact H2|exact H3]].
  - destruct H as (m & H1 & H2 & H3). apply is_sig_In. exists m. split; [exact H1|split; [exact H2|exact H3]].
Qed.
Lemma one_writes e payer i k : may_write e payer [TxTokenWrap i] k = true <-> k = payer \/ writable (tx_metas i) k.
Proof.
  unfold may_write. cbn [existsb ix_accounts]. rewrite orb_false_r, orb_true_iff, pk_eqb_eq. split; (intros [H|H]; [left; exact H|right]).
  - apply is_wr_In in H. destruct H as (m & H1 & H2 & H3). exists m. split; [exact H1|split; [exact H2|exact H3]].
  - destruct H as (m & H1 & H2 & H3). apply is_wr_In. exists m. split; [exact H1|split; [exact H2|exact H3]].
Qed.
(** Nine accounts and the signers. *)
Definition nine (ms : list info) (ta : pubkey) (members : list pubkey) : list info :=
  ms ++ [meta_r ta (is_nil members)] ++ map (fun k => meta_r k true) members.
Lemma nine_signed ms ta members k :
  (forall m, In m ms -> i_signer m = false) -> (signed (nine ms ta members) k <-> In k (match members with [] => [ta] | _ => members end)).
Proof.
  intro Hms. unfold nine. split.
  - intros (m & Hm & Hk & Hs). apply in_app_or in Hm. destruct Hm as [Hm|Hm]; [rewrite (Hms m Hm) in Hs; discriminate Hs|].
    destruct Hm as [<-|Hm].
    + cbn [meta_r i_key i_signer] in Hk, Hs. destruct members; [left; exact Hk|discriminate Hs].
    + apply in_map_iff in Hm. destruct Hm as (x & <- & Hx). cbn [meta_r i_key] in Hk. subst x. destruct members; [destruct Hx|exact Hx].
  - intro H. destruct members as [|y r].
    + destruct H as [<-|[]]. exists (meta_r ta true). split; [apply in_or_app; right; left; reflexivity|split; reflexivity].
    + exists (meta_r k true). split; [|split; reflexivity]. apply in_or_app. right. right. apply in_map_iff. exists k. split; [reflexivity|exact H].
Qed.
Lemma partial_sign_all e payer i ms authority multisig presigners :
  tx_metas i = nine ms (sg_key authority) (map sg_key multisig) -> (forall m, In m ms -> i_signer m = false) ->
  all_sign payer authority multisig presigners ->
  exists sigs, partial_sign e payer [TxTokenWrap i] (tx_signers (mkSigner payer true) authority multisig presigners) = Ok (mkTx payer [TxTokenWrap i] sigs) /\
    forall k, must_sign e payer [TxTokenWrap i] k = true -> In k sigs.
Proof.
  intros Hi Hms [A1 A2]. set (ks := asked payer (sg_key authority) (map sg_key multisig)) in *.
  assert (MS : forall k, must_sign e payer [TxTokenWrap i] k = true <-> In k ks).
  { intro k. rewrite one_signs, Hi, (nine_signed ms _ _ k Hms). unfold ks, asked. split; intros [H|H]; [left; symmetry; exact H|right; exact H|left; symmetry; exact H|right; exact H]. }
  set (front := [mkSigner payer true] ++ (if negb (pk_eqb payer (sg_key authority)) && is_nil multisig then [authority] else []) ++ multisig).
  assert (TS : tx_signers (mkSigner payer true) authority multisig presigners = front ++ presigners).
  { unfold tx_signers, front. cbn [sg_key]. rewrite <- !app_assoc. reflexivity. }
  assert (MM : match map sg_key multisig with [] => [sg_key authority] | _ => map sg_key multisig end = map sg_key (match multisig with [] => [authority] | _ => multisig end))
    by (destruct multisig; reflexivity).
  assert (F : forall s, In s front -> s = mkSigner payer true \/ In s (match multisig with [] => [authority] | _ => multisig end)).
  { intros s Hs. unfold front in Hs. cbn [app] in Hs. destruct Hs as [<-|Hs]; [left; reflexivity|right]. apply in_app_or in Hs. destruct Hs as [Hs|Hs].
    - destruct multisig; [|cbn [is_nil] in Hs; rewrite andb_false_r in Hs; destruct Hs]. destruct (negb _) in Hs; [exact Hs|destruct Hs].
    - destruct multisig; [destruct Hs|exact Hs]. }
  assert (G : forallb (fun s => must_sign e payer [TxTokenWrap i] (sg_key s)) (front ++ presigners) = true).
  { apply forallb_forall. intros s Hs. apply MS. apply in_app_or in Hs. destruct Hs as [Hs|Hs]; [|exact (proj1 (A1 s Hs))].
    destruct (F s Hs) as [-> |Hs2]; [left; reflexivity|]. right. rewrite MM. apply in_map. exact Hs2. }
  assert (Sg : forall k, In k ks -> signs (front ++ presigners) k = true /\ In k (map sg_key (front ++ presigners))).
  { intros k Hk.
    assert (Fk : exists s, In s front /\ sg_key s = k).
    { unfold ks, asked in Hk. destruct Hk as [Hk|Hk]; [exists (mkSigner payer true); split; [left; reflexivity|exact Hk]|].
      rewrite MM in Hk. apply in_map_iff in Hk. destruct Hk as (s & Hk & Hs). destruct multisig as [|y r].
      - destruct Hs as [<-|[]]. destruct (pk_eqb payer (sg_key authority)) eqn:E.
        + apply pk_eqb_eq in E. exists (mkSigner payer true). split; [left; reflexivity|]. cbn [sg_key]. rewrite E. exact Hk.
        + exists authority. split; [|exact Hk]. unfold front. cbn [app]. right. left. reflexivity.
      - exists s. split; [|exact Hk]. unfold front. cbn [app]. right. apply in_or_app. right. exact Hs. }
    split.
    - destruct (A2 k Hk) as [P|P].
      + apply signs_later; [exact P|]. intros s Hs _. exact (proj2 (A1 s Hs)).
      + apply signs_all.
        * destruct Fk as (s & Hs & E). exists s. split; [apply in_or_app; left; exact Hs|exact E].
        * intros s Hs E. apply in_app_or in Hs. destruct Hs as [Hs|Hs]; [|exact (proj2 (A1 s Hs))].
          destruct (F s Hs) as [-> |Hs2]; [reflexivity|exact (P s Hs2 E)].
    - destruct Fk as (s & Hs & E). rewrite <- E. apply in_map. apply in_or_app. left. exact Hs. }
  rewrite TS. unfold partial_sign. rewrite G. cbn [guard bind]. eexists. split; [reflexivity|].
  intros k Hk. apply MS in Hk. destruct (Sg k Hk) as [S1 S2]. apply filter_In. split; [exact S2|exact S1].
Qed.
