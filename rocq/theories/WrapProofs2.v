(** * WrapProofs2.v — round trip and degenerate account choices. *)
From Verif Require Import Base Codec State Pda TokenProg Cpi Meta Processor Tac CodecProofs PdaProofs TokProofs FrameProofs ProcProofs Spec SpecLemmas WrapProofs.

Lemma tok_eta t t' :
  same_account t t' -> t_exts t' = t_exts t -> t_amount t' = t_amount t -> t_delegate t' = t_delegate t -> t_delegated t' = t_delegated t -> t' = t.
Proof.
  destruct t, t'. unfold same_account; cbn. intros (A & B & C & D & E & _ & _) F G H I. subst. reflexivity.
Qed.
Lemma same_account_trans a b c : same_account a b -> same_account b c -> same_account a c.
Proof. unfold same_account. intros (A1 & A2 & A3 & A4 & A5 & A6 & A7) (B1 & B2 & B3 & B4 & B5 & B6 & B7). repeat split; congruence. Qed.
Lemma acc_eta (x : account) : mkAcc (a_lamports x) (a_data x) (a_owner x) = x.
Proof. destruct x; reflexivity. Qed.
Lemma delegation_kept t t' auth n : t_delegate t <> Some auth -> delegation_after t t' auth n ->
  t_delegate t' = t_delegate t /\ t_delegated t' = t_delegated t.
Proof. intros H [A|[A _]]; [exact A|contradiction]. Qed.
Lemma mint_data_fun l k m m' : mint_data l k m -> mint_data l k m' -> m = m'.
Proof. intros [A _] [B _]. rewrite A in B. congruence. Qed.

(** A credit without fee leaves the extensions alone. *)
Lemma wrap_exact_nofee e accounts amount l l' r w a up wp s u esc ta :
  amount < two64 ->
  keys_are accounts [r; w; a; up; wp; s; u; esc; ta] ->
  succeeds e accounts (Wrap amount) l l' ->
  s <> esc ->
  (forall m, mint_data l u m -> ext_hook m = None /\ fee_for m (e_epoch e) amount 0) ->
  exists mw ts te tr s1,
    (w = wrapped_mint_of e u wp /\ mint_account l w wp mw /\ token_account l s up ts /\ token_account l esc up te /\ token_account l r wp tr) /\
    (t_mint ts = u /\ t_mint te = u /\ t_mint tr = w) /\
    (amount <= t_amount ts /\ native_part ts amount <= lamports l s /\ same_account ts s1 /\ t_exts s1 = t_exts ts /\
     t_amount s1 = t_amount ts /\ delegation_after ts s1 ta amount) /\
    (r <> s /\ r <> esc /\ r <> w /\ w <> s /\ w <> esc) /\
    l' s = mkAcc (lamports l s - native_part ts amount) (DTok (set_amount (t_amount ts - amount) s1)) up /\
    l' esc = mkAcc (lamports l esc + native_part ts amount) (DTok (set_amount (t_amount te + amount) te)) up /\
    l' w = mkAcc (lamports l w) (DMint (set_supply (m_supply mw + amount) mw)) wp /\
    l' r = mkAcc (lamports l r) (DTok (set_amount (t_amount tr + amount) tr)) wp /\
    forall k, k <> s -> k <> esc -> k <> w -> k <> r -> l' k = l k.
Proof.
  intros Hu64 Hk H Hse Hm0.
  eapply wrap_inv in H; [|eassumption|eassumption].
  destruct H as (Hz & Hup & Hwp & Ew & Ea & Ee & et & um & ms & extra & l1 & msm & Het & Heo & Hum & Hfl & -> & [_ Hwr] & Htr & -> & [_ Hwr2] & Hmt).
  eapply transfer_effect in Htr; [|exact Hup|exact Hse].
  destruct Htr as (ts & te & mu & fee & s1 & dx & Hs & Hd & Hm & Hms & Hmd & Hfs & Hfd & Hdec & Hfee & Hfa & Has & Hov & _ & _ & Hau & Ho1 & Ho2 & _ & _ & Hdx & Hnat & L1 & L2 & L3).
  apply unpack_tok_inv in Hs. destruct Hs as (Ds & Ss & _). apply unpack_tok_inv in Hd. destruct Hd as (Dd & Sd & _).
  apply unpack_mint_inv in Hm. destruct Hm as (Dm & Im & _).
  destruct (Hm0 mu (conj Dm Im)) as [Hh Hf0].
  apply pod_unpack_mint_inv in Hum. destruct Hum as (Dum & _). rewrite Dm in Dum. inversion Dum; subst um; clear Dum.
  rewrite (transfer_fee_wrap_fee _ _ _ _ Hfee) in Hmt.
  assert (fee = 0). { eapply fee_for_fun; [eapply transfer_fee_of_for; eauto|exact Hf0]. } subst fee.
  cbn in Hdx. subst dx. rewrite N.sub_0_r in *.
  apply mint_to_inv in Hmt.
  destruct Hmt as (tr & mw & Hr & Hfr & _ & Hrm & Hw & Hwa & _ & _ & _ & Or & Ow & Hwr' & _ & _ & ->).
  apply unpack_tok_inv in Hr. destruct Hr as (Dr & Sr & _). apply unpack_mint_inv in Hw. destruct Hw as (Dw & Iw & _).
  assert (Nwu : w <> u) by (rewrite Ew; apply wrapped_neq_unwrapped).
  assert (Nws : w <> s). { intro X; subst w. rewrite <- X in L1. rewrite L1 in Dw. discriminate. }
  assert (Nwe : w <> esc). { intro X. rewrite X in Dw. rewrite L2 in Dw. discriminate. }
  pose proof (authorize_debit_fields _ _ _ _ _ _ _ _ _ _ _ Hau) as (F1 & F2 & F3 & F4 & F5 & F6 & F7).
  assert (Nrs : r <> s). { intro X. rewrite X, L1 in Dr. inversion Dr; subst tr. cbn in Hrm. congruence. }
  assert (Nre : r <> esc). { intro X. rewrite X, L2 in Dr. inversion Dr; subst tr. cbn in Hrm. congruence. }
  assert (Lo : forall k, k <> s -> k <> esc -> l1 k = l k) by (intros; apply L3; auto).
  rewrite (Lo w) in * by auto. rewrite (Lo r) in * by auto.
  exists mw, ts, te, tr, s1.
  split. { repeat split; auto; congruence. }
  split; [auto|].
  split. { repeat split; auto; try congruence. eapply debit_delegation; eauto. }
  split; [auto 10|].
  split. { rewrite !upd_other by auto. exact L1. }
  split. { rewrite !upd_other by auto. rewrite L2. destruct te; reflexivity. }
  split. { rewrite upd_same. unfold with_data. rewrite Ow. reflexivity. }
  split. { rewrite upd_other by auto. rewrite upd_same. unfold with_data. rewrite Or. reflexivity. }
  intros k K1 K2 K3 K4. rewrite !upd_other by auto. auto.
Qed.

Lemma unwrap_exact_nofee e accounts amount l l' esc r a u wp up s w ta :
  amount < two64 ->
  keys_are accounts [esc; r; a; u; wp; up; s; w; ta] ->
  succeeds e accounts (Unwrap amount) l l' ->
  r <> esc ->
  (forall m, mint_data l u m -> ext_hook m = None /\ fee_for m (e_epoch e) amount 0) ->
  exists mw ts te tr s1 e1,
    (mint_account l w wp mw /\ token_account l s wp ts /\ token_account l esc up te /\ token_account l r up tr) /\
    (amount <= t_amount ts /\ same_account ts s1 /\ t_exts s1 = t_exts ts /\ t_amount s1 = t_amount ts /\ delegation_after ts s1 ta amount) /\
    (amount <= t_amount te /\ same_account te e1 /\ t_exts e1 = t_exts te /\ t_amount e1 = t_amount te /\ delegation_after te e1 a amount) /\
    l' s = mkAcc (lamports l s) (DTok (set_amount (t_amount ts - amount) s1)) wp /\
    l' esc = mkAcc (lamports l esc - native_part te amount) (DTok (set_amount (t_amount te - amount) e1)) up /\
    l' w = mkAcc (lamports l w) (DMint (set_supply (m_supply mw - amount) mw)) wp /\
    l' r = mkAcc (lamports l r + native_part te amount) (DTok (set_amount (t_amount tr + amount) tr)) up /\
    forall k, k <> s -> k <> esc -> k <> w -> k <> r -> l' k = l k.
Proof.
  intros Hu64 Hk H Hre Hm0. eapply unwrap_inv in H; [|eassumption|eassumption].
  destruct H as (Hz & Hup & Hwp & Ew & Ea & Ee & msk & msb & l1 & um & extra & ms & -> & [_ Hwr2] & Hb & Hum & -> & [_ Hwr] & Htr).
  eapply transfer_effect in Htr; [|exact Hup|congruence].
  destruct Htr as (te & tr & mu & fee & s1 & dx & Hs & Hd & Hm & Hms & Hmd & Hfs & Hfd & Hdec & Hfee & Hfa & Has & Hov & _ & _ & Hau & Ho1 & Ho2 & _ & _ & Hdx & Hnat & L1 & L2 & L3).
  apply unpack_tok_inv in Hs. destruct Hs as (Ds & Ss & _). apply unpack_tok_inv in Hd. destruct Hd as (Dd & Sd & _).
  apply unpack_mint_inv in Hm. destruct Hm as (Dm & Im & _).
  apply burn_inv in Hb.
  destruct Hb as (ts & mw & t1 & Hts & Hmw & Hfr & _ & Hat & Htm & Hauth & Hasu & Os & Ow & Nws & _ & _ & El1).
  apply unpack_tok_inv in Hts. destruct Hts as (Dts & Sts & _). apply unpack_mint_inv in Hmw. destruct Hmw as (Dmw & Imw & _).
  assert (Nwu : w <> u) by (rewrite Ew; apply wrapped_neq_unwrapped).
  assert (Ht1 : same_account ts t1 /\ t_exts t1 = t_exts ts /\ t_amount t1 = t_amount ts /\ delegation_after ts t1 ta amount).
  { destruct Hauth as [[_ ->]|(_ & _ & Hauth)].
    - repeat split; left; auto.
    - pose proof (debit_delegation _ _ _ _ _ _ _ _ _ _ Hauth). apply authorize_debit_fields in Hauth.
      destruct Hauth as (F1 & F2 & F3 & F4 & F5 & F6 & F7). repeat split; auto; congruence. }
  destruct Ht1 as (Ht1s & Ht1x & Ht1a & Ht1d). assert (Ht1m : t_mint t1 = t_mint ts) by apply Ht1s.
  assert (Lw1 : a_data (l1 w) = DMint (set_supply (m_supply mw - amount) mw)).
  { rewrite El1, upd_same. reflexivity. }
  assert (Ls1 : a_data (l1 s) = DTok (set_amount (t_amount t1 - amount) t1)).
  { rewrite El1, upd_other by auto. rewrite upd_same. reflexivity. }
  assert (Nes : esc <> s). { intro X. rewrite X, Ls1 in Ds. inversion Ds; subst te. cbn in Hms. congruence. }
  assert (New : esc <> w). { intro X. rewrite X, Lw1 in Ds. discriminate. }
  assert (Nrs : r <> s). { intro X. rewrite X, Ls1 in Dd. inversion Dd; subst tr. cbn in Hmd. congruence. }
  assert (Nrw : r <> w). { intro X. rewrite X, Lw1 in Dd. discriminate. }
  assert (Nus : u <> s). { intro X. rewrite X, Ls1 in Dm. discriminate. }
  assert (Lo : forall k, k <> s -> k <> w -> l1 k = l k).
  { intros k K1 K2. rewrite El1, !upd_other by auto. reflexivity. }
  rewrite (Lo esc) in * by auto. rewrite (Lo r) in * by auto. rewrite (Lo u) in * by auto.
  destruct (Hm0 mu (conj Dm Im)) as [Hh Hf0].
  assert (fee = 0). { eapply fee_for_fun; [eapply transfer_fee_of_for; eauto|exact Hf0]. } subst fee.
  cbn in Hdx. subst dx. rewrite N.sub_0_r in *.
  pose proof (authorize_debit_fields _ _ _ _ _ _ _ _ _ _ _ Hau) as (F1 & F2 & F3 & F4 & F5 & F6 & F7).
  exists mw, ts, te, tr, t1, s1.
  split. { repeat split; auto; congruence. }
  split; [auto|].
  split. { repeat split; auto; try congruence. eapply debit_delegation; eauto. }
  split. { rewrite L3 by auto. rewrite El1, upd_other by auto. rewrite upd_same. unfold with_data. rewrite Os, Ht1a. reflexivity. }
  split; [exact L1|].
  split. { rewrite L3 by auto. rewrite El1, upd_same. unfold with_data. rewrite Ow. reflexivity. }
  split. { rewrite L2. destruct tr; reflexivity. }
  intros k K1 K2 K3 K4. rewrite L3 by auto. auto.
Qed.

Lemma round_trip_l e1 e2 acc1 acc2 amount l l1 l2 r w a up wp s u esc ta1 ta2 :
  amount < two64 ->
  keys_are acc1 [r; w; a; up; wp; s; u; esc; ta1] -> succeeds e1 acc1 (Wrap amount) l l1 ->
  keys_are acc2 [esc; s; a; u; wp; up; r; w; ta2] -> succeeds e2 acc2 (Unwrap amount) l1 l2 ->
  s <> esc ->
  (forall m, mint_data l u m -> ext_hook m = None /\ fee_for m (e_epoch e1) amount 0 /\ fee_for m (e_epoch e2) amount 0) ->
  (forall t, a_data (l s) = DTok t -> t_delegate t <> Some ta1) ->
  (forall t, a_data (l r) = DTok t -> t_delegate t <> Some ta2) ->
  (forall t, a_data (l esc) = DTok t -> t_delegate t <> Some a) ->
  (forall t t', a_data (l s) = DTok t -> a_data (l esc) = DTok t' -> (t_native t = None <-> t_native t' = None)) ->
  forall k, l2 k = l k.
Proof.
  intros Hu Hk1 H1 Hk2 H2 Hse Hm Hd1 Hd2 Hd3 Hnat.
  eapply wrap_exact_nofee in H1; [|eassumption|eassumption|eassumption|].
  2: { intros m Hmm. destruct (Hm m Hmm) as (A & B & _); auto. }
  destruct H1 as (mw & ts & te & tr & s1 & (Ew & Mw & Ts & Te & Tr) & (Ms & Me & Mr) & (As & Ns & Ss & Xs & Es & Ds) & (N1 & N2 & N3 & N4 & N5) & L1s & L1e & L1w & L1r & L1o).
  assert (Nuw : u <> w) by (rewrite Ew; apply unwrapped_neq_wrapped).
  eapply unwrap_exact_nofee in H2; [|eassumption|eassumption|exact Hse|].
  2: { intros m [Hmm Hmi]. assert (E : l1 u = l u).
       { apply L1o.
         - intro X. rewrite X, L1s in Hmm. discriminate.
         - intro X. rewrite X, L1e in Hmm. discriminate.
         - exact Nuw.
         - intro X. rewrite X, L1r in Hmm. discriminate. }
       rewrite E in Hmm. destruct (Hm m (conj Hmm Hmi)) as (A & _ & B); auto. }
  destruct H2 as (mw' & ts' & te' & tr' & s1' & e1' & ((Ow' & Dw' & _) & (Os' & Ds' & _) & (Oe' & De' & _) & (Or' & Dr' & _)) &
    (As' & Ss' & Xs' & Es' & Dg') & (Ae' & Se' & Xe' & Ee' & De1) & L2s & L2e & L2w & L2r & L2o).
  unfold lamports in *. rewrite L1w in *. rewrite L1r in *. rewrite L1e in *. rewrite L1s in *. cbn [a_data a_owner a_lamports] in *.
  inversion Dw'; subst mw'. inversion Ds'; subst ts'. inversion De'; subst te'. inversion Dr'; subst tr'.
  clear Dw' Ds' De' Dr'.
  destruct Ts as (Os & Dts & _), Te as (Oe & Dte & _), Tr as (Or & Dtr & _), Mw as (Ow & Dmw & _).
  destruct (delegation_kept _ _ _ _ (Hd1 _ Dts) Ds) as [P1 P2].
  destruct (delegation_kept (set_amount (t_amount tr + amount) tr) _ _ _ (Hd2 _ Dtr) Dg') as [P3 P4].
  destruct (delegation_kept (set_amount (t_amount te + amount) te) _ _ _ (Hd3 _ Dte) De1) as [P5 P6].
  assert (Enat : native_part (set_amount (t_amount te + amount) te) amount = native_part ts amount).
  { specialize (Hnat _ _ Dts Dte). unfold native_part. cbn [set_amount t_native].
    destruct (t_native ts), (t_native te); try reflexivity; exfalso; destruct Hnat as [X Y];
      [discriminate (Y eq_refl) | discriminate (X eq_refl)]. }
  rewrite Enat in *. cbn [set_amount t_amount t_exts t_delegate t_delegated] in *.
  intro k.
  destruct (pk_dec k s) as [->|K1].
  { rewrite L2r. rewrite <- (acc_eta (l s)), Os, Dts. f_equal; [cbn; lia|].
    f_equal. apply tok_eta; cbn; try congruence; try lia.
    destruct Ss as (B1 & B2 & B3 & B4 & B5 & B6 & B7). unfold same_account; cbn. repeat split; congruence. }
  destruct (pk_dec k esc) as [->|K2].
  { rewrite L2e. rewrite <- (acc_eta (l esc)), Oe, Dte. f_equal; [cbn; lia|].
    f_equal. apply tok_eta; cbn; try congruence; try lia.
    destruct Se' as (B1 & B2 & B3 & B4 & B5 & B6 & B7). unfold same_account in *; cbn in *. repeat split; congruence. }
  destruct (pk_dec k w) as [->|K3].
  { rewrite L2w. rewrite <- (acc_eta (l w)), Ow, Dmw. f_equal. f_equal. destruct mw; unfold set_supply; cbn. f_equal. lia. }
  destruct (pk_dec k r) as [->|K4].
  { rewrite L2s. rewrite <- (acc_eta (l r)), Or, Dtr. f_equal.
    f_equal. apply tok_eta; cbn; try congruence; try lia.
    destruct Ss' as (B1 & B2 & B3 & B4 & B5 & B6 & B7). unfold same_account in *; cbn in *. repeat split; congruence. }
  rewrite L2o, L1o; auto.
Qed.

(** ** Degenerate account choices *)
(** Source = escrow: nothing moves in, tokens are minted all the same. *)
Lemma wrap_self_l e accounts amount l l' r w a up wp u esc ta :
  amount < two64 ->
  keys_are accounts [r; w; a; up; wp; esc; u; esc; ta] ->
  succeeds e accounts (Wrap amount) l l' ->
  exists mu mw tr fee,
    mint_data l u mu /\ mint_account l w wp mw /\ token_account l r wp tr /\ t_mint tr = w /\ r <> esc /\ w <> esc /\ r <> w /\
    fee_for mu (e_epoch e) amount fee /\ fee <= amount /\
    l' w = mkAcc (lamports l w)
                 (DMint (mkMint (m_auth mw) (m_supply mw + (amount - fee)) (m_decimals mw) (m_init mw) (m_freeze mw) (m_exts mw) (m_len mw))) wp /\
    l' r = mkAcc (lamports l r) (DTok (mkTok (t_mint tr) (t_owner tr) (t_amount tr + (amount - fee)) (t_delegate tr) (t_delegated tr)
                                   (t_state tr) (t_native tr) (t_close tr) (t_exts tr))) wp /\
    forall k, k <> w -> k <> r -> l' k = l k.
Proof.
  intros Hu64 Hk H. eapply wrap_inv in H; [|eassumption|eassumption].
  destruct H as (Hz & Hup & Hwp & Ew & Ea & Ee & et & um & ms & extra & l1 & msm & Het & Heo & Hum & Hfl & -> & [_ Hwr] & Htr & -> & [_ Hwr2] & Hmt).
  apply transfer_checked_inv in Htr.
  destruct Htr as (s & m & fee & s1 & Hs & _ & _ & Hsm & Hm & _ & Hfee & _ & _ & _ & _ & _ & H).
  destruct H as [[_ ->]|[X _]]; [|contradiction].
  apply unpack_mint_inv in Hm. destruct Hm as (Dm & Im & _). apply unpack_tok_inv in Hs. destruct Hs as (Ds & Ss & _).
  apply pod_unpack_mint_inv in Hum. destruct Hum as (Dum & _). rewrite Dm in Dum. inversion Dum; subst um; clear Dum.
  rewrite (transfer_fee_wrap_fee _ _ _ _ Hfee) in *.
  apply mint_to_inv in Hmt.
  destruct Hmt as (tr & mw & Hr & Hfr & _ & Hrm & Hw & Hwa & _ & _ & _ & Or & Ow & Hwr' & _ & _ & ->).
  apply unpack_tok_inv in Hr. destruct Hr as (Dr & Sr & _). apply unpack_mint_inv in Hw. destruct Hw as (Dw & Iw & _).
  assert (Nwu : w <> u) by (rewrite Ew; apply wrapped_neq_unwrapped).
  exists m, mw, tr, fee. unfold mint_data, mint_account, token_account, mint_data.
  pose proof (transfer_fee_of_for _ _ _ _ Hfee) as Hff.
  do 9 (split; [first [assumption | split; assumption | split; [assumption|split; assumption] | congruence ]|]).
  split. { rewrite upd_same. unfold with_data. rewrite Ow. reflexivity. }
  split. { rewrite upd_other by auto. rewrite upd_same. unfold with_data. rewrite Or. reflexivity. }
  intros k K1 K2. rewrite !upd_other; auto.
Qed.
(** Recipient = escrow: the wrapped tokens are burned and nothing is paid out. *)
Lemma unwrap_self_l e accounts amount l l' a u wp up s w esc ta :
  amount < two64 ->
  keys_are accounts [esc; esc; a; u; wp; up; s; w; ta] ->
  succeeds e accounts (Unwrap amount) l l' ->
  l' esc = l esc /\ supply l w = supply l' w + amount /\ balance l s = balance l' s + amount.
Proof.
  intros Hu64 Hk H. eapply unwrap_inv in H; [|eassumption|eassumption].
  destruct H as (Hz & Hup & Hwp & Ew & Ea & Ee & msk & msb & l1 & um & extra & ms & -> & [_ Hwr2] & Hb & Hum & -> & [_ Hwr] & Htr).
  apply transfer_checked_inv in Htr.
  destruct Htr as (te & m & fee & s1 & Hs & _ & _ & Hsm & Hm & _ & Hfee & _ & _ & _ & _ & _ & H).
  destruct H as [[_ ->]|[X _]]; [|contradiction].
  apply unpack_tok_inv in Hs. destruct Hs as (Ds & Ss & _).
  apply burn_inv in Hb.
  destruct Hb as (ts & mw & t1 & Hts & Hmw & Hfr & _ & Hat & Htm & Hauth & Hasu & Os & Ow & Nws & _ & _ & El1).
  apply unpack_tok_inv in Hts. destruct Hts as (Dts & Sts & _). apply unpack_mint_inv in Hmw. destruct Hmw as (Dmw & Imw & _).
  assert (Nwu : w <> u) by (rewrite Ew; apply wrapped_neq_unwrapped).
  assert (Ht1 : t_mint t1 = t_mint ts /\ t_amount t1 = t_amount ts).
  { destruct Hauth as [[_ ->]|(_ & _ & Hauth)]; [auto|]. apply authorize_debit_fields in Hauth. tauto. }
  destruct Ht1 as [Ht1m Ht1a].
  assert (Lw1 : a_data (l1 w) = DMint (set_supply (m_supply mw - amount) mw)).
  { rewrite El1, upd_same. reflexivity. }
  assert (Ls1 : a_data (l1 s) = DTok (set_amount (t_amount t1 - amount) t1)).
  { rewrite El1, upd_other by auto. rewrite upd_same. reflexivity. }
  assert (Nes : esc <> s). { intro X. rewrite X, Ls1 in Ds. inversion Ds; subst te. cbn in Hsm. congruence. }
  assert (New : esc <> w). { intro X. rewrite X, Lw1 in Ds. discriminate. }
  split. { rewrite El1, !upd_other by auto. reflexivity. }
  unfold supply, balance. rewrite Lw1, Ls1, Dmw, Dts. cbn. lia.
Qed.
