(** * OrdersProofs.v — lemmas for C66: Wrap and Unwrap do not mind what others do to the escrow's balance and
    the wrapped mint's supply. *)
From Coq Require Import Permutation.
From Verif Require Import Base Codec State Pda TokenProg Cpi Ata Meta Processor Tac CodecProofs PdaProofs TokProofs FrameProofs ProcProofs
  Spec SpecLemmas CreateProofs CreateSpec WrapProofs CloseProofs InvTok InvCons HistorySpec InvState InvTw InvHist EscProofs SolProofs HistProofs
  EscLive UnwrapLive WrapLive LocalSpec OrdersSpec.

(** ** Balances and extensions *)
Definition clear (x : list acct_ext) : list acct_ext :=
  map (fun x => match x with AxTransferFeeAmount _ => AxTransferFeeAmount 0 | _ => x end) x.
Lemma clear_types x : map acct_ext_type_of (clear x) = map acct_ext_type_of x.
Proof. unfold clear. rewrite map_map. apply map_ext. intros []; reflexivity. Qed.
Lemma clear_existsb (f : acct_ext -> bool) x :
  (forall n m, f (AxTransferFeeAmount n) = f (AxTransferFeeAmount m)) -> existsb f (clear x) = existsb f x.
Proof.
  intro F. induction x as [|y r IH]; [reflexivity|]. cbn. fold (clear r). rewrite IH. f_equal. destruct y; try reflexivity. apply F.
Qed.
Lemma no_balance_inv t1 t2 : no_balance t2 = no_balance t1 ->
  t_mint t2 = t_mint t1 /\ t_owner t2 = t_owner t1 /\ t_delegate t2 = t_delegate t1 /\ t_delegated t2 = t_delegated t1 /\
  t_state t2 = t_state t1 /\ t_native t2 = t_native t1 /\ t_close t2 = t_close t1 /\ clear (t_exts t2) = clear (t_exts t1).
Proof. unfold no_balance. intro H. injection H as A B C D E F G K. repeat split; assumption. Qed.
Lemma no_balance_intro t1 t2 :
  t_mint t2 = t_mint t1 -> t_owner t2 = t_owner t1 -> t_delegate t2 = t_delegate t1 -> t_delegated t2 = t_delegated t1 ->
  t_state t2 = t_state t1 -> t_native t2 = t_native t1 -> t_close t2 = t_close t1 -> clear (t_exts t2) = clear (t_exts t1) ->
  no_balance t2 = no_balance t1.
Proof. intros A B C D E F G K. unfold no_balance. fold (clear (t_exts t2)) (clear (t_exts t1)). rewrite A, B, C, D, E, F, G, K. reflexivity. Qed.
Lemma clear_memo t1 t2 : clear (t_exts t2) = clear (t_exts t1) -> memo_required t2 = memo_required t1.
Proof.
  intro H. unfold memo_required. rewrite <- (clear_existsb _ (t_exts t2)), <- (clear_existsb _ (t_exts t1)) by reflexivity. rewrite H. reflexivity.
Qed.
Lemma clear_guard t1 t2 : clear (t_exts t2) = clear (t_exts t1) -> cpi_guard_locked t2 = cpi_guard_locked t1.
Proof.
  intro H. unfold cpi_guard_locked. rewrite <- (clear_existsb _ (t_exts t2)), <- (clear_existsb _ (t_exts t1)) by reflexivity. rewrite H. reflexivity.
Qed.
Lemma clear_has x t1 t2 : clear (t_exts t2) = clear (t_exts t1) -> has_acct_ext x t2 = has_acct_ext x t1.
Proof.
  intro H. unfold has_acct_ext. rewrite <- (clear_existsb _ (t_exts t2)), <- (clear_existsb _ (t_exts t1)) by reflexivity. rewrite H. reflexivity.
Qed.
Lemma clear_nil x y : clear y = clear x -> x = [] -> y = [].
Proof. intros H ->. destruct y; [reflexivity | discriminate H]. Qed.

Lemma withhold_add fee x y : add_withheld fee x = Some y -> y = withhold fee x.
Proof.
  revert y. induction x as [|z r IH]; intros y; [discriminate|]. destruct z; cbn [add_withheld withhold];
    try (destruct (add_withheld fee r) as [r'|] eqn:E; [|discriminate]; intro H; injection H as <-; rewrite (IH r' eq_refl); reflexivity).
  destruct (_ <? _); [|discriminate]. intro H. injection H as <-. reflexivity.
Qed.
Lemma withhold_clear fee x : clear (withhold fee x) = clear x.
Proof. induction x as [|y r IH]; [reflexivity|]. destruct y; cbn; fold (clear (withhold fee r)) (clear r); try (rewrite IH; reflexivity). reflexivity. Qed.
Lemma withhold_0 x : withhold 0 x = x.
Proof. induction x as [|y r IH]; [reflexivity|]. destruct y; cbn; rewrite ?IH, ?N.add_0_r; reflexivity. Qed.
Lemma withhold_plus a b x : withhold a (withhold b x) = withhold (a + b) x.
Proof.
  induction x as [|y r IH]; [reflexivity|]. destruct y; cbn [withhold]; rewrite ?IH; try reflexivity. f_equal. f_equal. lia.
Qed.
Lemma withheld_in fee x y : add_withheld fee x = Some y -> In XtTransferFeeAmount (map acct_ext_type_of x).
Proof.
  revert y. induction x as [|z r IH]; intros y; [discriminate|]. destruct z; cbn [add_withheld map acct_ext_type_of];
    try (destruct (add_withheld fee r) as [r'|] eqn:E; [|discriminate]; intros _; right; exact (IH _ eq_refl)).
  intros _. left. reflexivity.
Qed.
Lemma add_withheld_again fee x1 x2 y1 : add_withheld fee x1 = Some y1 -> clear x2 = clear x1 -> withheld_of x2 + fee < two64 ->
  add_withheld fee x2 = Some (withhold fee x2).
Proof.
  intros A C L. destruct (add_withheld_live fee x2) as [y Y]; [|exact L|].
  - rewrite <- clear_types, C, clear_types. exact (withheld_in _ _ _ A).
  - rewrite Y. f_equal. exact (withhold_add _ _ _ Y).
Qed.

(** ** Reading through [up_to_turnover] *)
Lemma utt_at ks esc w l1 l2 k : up_to_turnover ks esc w l1 l2 -> In k ks -> k <> esc -> k <> w -> l2 k = l1 k.
Proof. intros (A & _) K N1 N2. exact (A k K N1 N2). Qed.
Lemma utt_owner ks esc w l1 l2 k : up_to_turnover ks esc w l1 l2 -> In k ks -> a_owner (l2 k) = a_owner (l1 k).
Proof.
  intros (A & (B & _) & C & _) K. destruct (pk_dec k esc) as [-> | N1]; [exact B|]. destruct (pk_dec k w) as [-> | N2]; [exact C|].
  rewrite (A k K N1 N2). reflexivity.
Qed.
Lemma utt_multisig ks esc w l1 l2 k : up_to_turnover ks esc w l1 l2 -> In k ks ->
  a_data (l2 k) = a_data (l1 k) \/ ((forall m, a_data (l2 k) <> DMultisig m) /\ forall m, a_data (l1 k) <> DMultisig m).
Proof.
  intros (A & (_ & t1 & t2 & B1 & B2 & _) & _ & m1 & m2 & C1 & C2 & _) K. destruct (pk_dec k esc) as [-> | N1].
  { right. rewrite B1, B2. split; discriminate. }
  destruct (pk_dec k w) as [-> | N2]. { right. rewrite C1, C2. split; discriminate. }
  left. rewrite (A k K N1 N2). reflexivity.
Qed.
Lemma utt_validate ks esc w l1 l2 p ms expected auth signers : up_to_turnover ks esc w l1 l2 -> In auth ks ->
  validate_owner p l2 ms expected auth signers = validate_owner p l1 ms expected auth signers.
Proof.
  intros U K. unfold validate_owner. rewrite (utt_owner _ _ _ _ _ _ U K).
  destruct (utt_multisig _ _ _ _ _ _ U K) as [-> | [A B]]; [reflexivity|].
  destruct (a_data (l2 auth)) as [| | | |x|]; destruct (a_data (l1 auth)) as [| | | |y|]; try reflexivity;
    solve [exfalso; exact (A _ eq_refl) | exfalso; exact (B _ eq_refl)].
Qed.
Lemma utt_auth_signer ks esc w l1 l2 auth : up_to_turnover ks esc w l1 l2 -> In auth ks -> auth_is_signer l2 auth = auth_is_signer l1 auth.
Proof.
  intros U K. unfold auth_is_signer.
  destruct (utt_multisig _ _ _ _ _ _ U K) as [-> | [A B]]; [reflexivity|].
  destruct (a_data (l2 auth)) as [| | | |x|]; destruct (a_data (l1 auth)) as [| | | |y|]; try reflexivity;
    solve [exfalso; exact (A _ eq_refl) | exfalso; exact (B _ eq_refl)].
Qed.
Lemma utt_debit ks esc w l1 l2 p ms cpi t1 t2 m auth signers amount self s1 : up_to_turnover ks esc w l1 l2 -> In auth ks ->
  no_balance t2 = no_balance t1 -> authorize_debit p l1 ms cpi t1 m auth signers amount self = Ok s1 ->
  exists s2, authorize_debit p l2 ms cpi t2 m auth signers amount self = Ok s2 /\ no_balance s2 = no_balance s1 /\
    t_amount s2 = t_amount t2 /\ t_exts s2 = t_exts t2.
Proof.
  intros U K B H. pose proof (no_balance_inv _ _ B) as (B1 & B2 & B3 & B4 & B5 & B6 & B7 & B8).
  unfold authorize_debit in *. rewrite !(utt_validate _ _ _ _ _ _ _ _ _ _ U K). rewrite B2, B3, B4, (clear_guard _ _ B8).
  destruct (opk_eqb _ _).
  { apply bind_ok in H. destruct H as ([] & V & H). rewrite V. cbn [bind]. injection H as <-. exists t2. repeat split. exact B. }
  destruct (opk_eqb (t_delegate t1) _).
  { apply bind_ok in H. destruct H as ([] & V & H). rewrite V. cbn [bind].
    apply bind_ok in H. destruct H as ([] & G & H). rewrite G. cbn [bind]. destruct self.
    - injection H as <-. exists t2. repeat split. exact B.
    - cbv zeta in *. injection H as <-. eexists. split; [reflexivity|]. split; [|split; reflexivity].
      apply no_balance_intro; first [assumption | reflexivity]. }
  apply bind_ok in H. destruct H as ([] & V & H). rewrite V. cbn [bind].
  apply bind_ok in H. destruct H as ([] & G & H). rewrite G. cbn [bind]. injection H as <-. exists t2. repeat split. exact B.
Qed.
(** The same accounts elsewhere: both ledgers changed alike. *)
Lemma utt_upd ks esc w l1 l2 k a1 a2 : up_to_turnover ks esc w l1 l2 -> k <> esc -> k <> w -> a2 = a1 ->
  up_to_turnover ks esc w (upd l1 k a1) (upd l2 k a2).
Proof.
  intros (A & B & C) N1 N2 ->. split; [|split].
  - intros x X E1 E2. unfold upd. destruct (pk_eqb k x); [reflexivity|]. exact (A x X E1 E2).
  - rewrite !upd_other by congruence. exact B.
  - rewrite !upd_other by congruence. exact C.
Qed.
Lemma utt_upd_esc ks esc w l1 l2 a1 a2 : up_to_turnover ks esc w l1 l2 -> esc <> w -> a_owner a2 = a_owner a1 ->
  (exists t1 t2, a_data a1 = DTok t1 /\ a_data a2 = DTok t2 /\ no_balance t2 = no_balance t1) ->
  up_to_turnover ks esc w (upd l1 esc a1) (upd l2 esc a2).
Proof.
  intros (A & B & C) N Ow D. split; [|split].
  - intros x X E1 E2. rewrite !upd_other by congruence. exact (A x X E1 E2).
  - rewrite !upd_same. split; [exact Ow | exact D].
  - rewrite !upd_other by congruence. exact C.
Qed.
Lemma utt_upd_w ks esc w l1 l2 a1 a2 : up_to_turnover ks esc w l1 l2 -> esc <> w -> a_owner a2 = a_owner a1 ->
  (exists t1 t2, a_data a1 = DMint t1 /\ a_data a2 = DMint t2 /\ no_supply t2 = no_supply t1) ->
  up_to_turnover ks esc w (upd l1 w a1) (upd l2 w a2).
Proof.
  intros (A & B & C) N Ow D. split; [|split].
  - intros x X E1 E2. rewrite !upd_other by congruence. exact (A x X E1 E2).
  - rewrite !upd_other by congruence. exact B.
  - rewrite !upd_same. split; [exact Ow | exact D].
Qed.

Lemma unpack_tok_again p t1 t2 : unpack_tok p (DTok t1) = Ok t1 -> t_state t2 = t_state t1 -> clear (t_exts t2) = clear (t_exts t1) -> unpack_tok p (DTok t2) = Ok t2.
Proof.
  intros H S C. apply unpack_tok_inv in H. destruct H as (_ & H1 & H2). apply unpack_tok_ok; [rewrite S; exact H1|].
  intro E. exact (clear_nil _ _ C (H2 E)).
Qed.

(** ** A transfer into the escrow *)
Lemma transfer_in ks esc w e p cpi ms src mnt auth signers amount dec xf l1 l2 l1' m :
  up_to_turnover ks esc w l1 l2 -> In src ks -> In mnt ks -> In auth ks -> esc <> w -> src <> esc -> src <> w -> mnt <> esc -> mnt <> w ->
  a_data (l1 mnt) = DMint m -> ext_hook m = None ->
  (forall t, a_data (l2 esc) = DTok t -> t_amount t + amount < two64 /\ (ext_fee m = None \/ withheld_of (t_exts t) + amount < two64)) ->
  tok_transfer_checked e p cpi ms src mnt esc auth signers amount dec xf l1 = Ok l1' ->
  exists l2', tok_transfer_checked e p cpi ms src mnt esc auth signers amount dec xf l2 = Ok l2' /\ up_to_turnover ks esc w l1' l2' /\ l2' w = l2 w.
Proof.
  intros U Ks Km Ka New Nse Nsw Nme Nmw Dm Hook Room H.
  destruct U as (UA & (UO & t1 & t2 & E1 & E2 & NB) & UW). assert (U : up_to_turnover ks esc w l1 l2).
  { split; [exact UA|]. split; [split; [exact UO|]|exact UW]. exists t1, t2. auto. }
  specialize (Room t2 E2). pose proof (no_balance_inv _ _ NB) as (B1 & B2 & B3 & B4 & B5 & B6 & B7 & B8).
  unfold tok_transfer_checked in *. rewrite (UA src Ks Nse Nsw), (UA mnt Km Nme Nmw).
  apply bind_ok in H. destruct H as (s & Hs & H). rewrite Hs. cbn [bind].
  apply bind_ok in H. destruct H as ([] & G1 & H). rewrite G1. cbn [bind].
  apply bind_ok in H. destruct H as ([] & G2 & H). rewrite G2. cbn [bind].
  apply bind_ok in H. destruct H as ([] & G3 & H). rewrite G3. cbn [bind].
  apply bind_ok in H. destruct H as ([] & G4 & H). rewrite G4. cbn [bind].
  apply bind_ok in H. destruct H as (m' & Hm & H). rewrite Hm. cbn [bind].
  assert (m' = m). { apply unpack_mint_inv in Hm. destruct Hm as (X & _). rewrite Dm in X. injection X as <-. reflexivity. } subst m'.
  apply bind_ok in H. destruct H as ([] & G5 & H). rewrite G5. cbn [bind].
  apply bind_ok in H. destruct H as (fee & Hf & H). rewrite Hf. cbn [bind].
  apply bind_ok in H. destruct H as ([] & G6 & H). rewrite G6. cbn [bind].
  apply bind_ok in H. destruct H as ([] & G7 & H). rewrite G7. cbn [bind]. cbv zeta in *.
  apply bind_ok in H. destruct H as (s1 & Ha & H).
  assert (Es : pk_eqb src esc = false) by (apply pk_eqb_neq; exact Nse). rewrite Es in *.
  assert (Ha2 : authorize_debit p l2 ms cpi s m auth signers amount false = Ok s1).
  { clear -Ha U Ka. unfold authorize_debit in *. rewrite !(utt_validate _ _ _ _ _ _ _ _ _ _ U Ka). exact Ha. }
  rewrite Ha2. cbn [bind].
  apply bind_ok in H. destruct H as ([] & G8 & H). rewrite (utt_owner _ _ _ _ _ _ U Ks) || idtac.
  rewrite UO. rewrite G8. cbn [bind].
  apply bind_ok in H. destruct H as (d & Hd & H). rewrite E1 in Hd.
  assert (d = t1). { apply unpack_tok_inv in Hd. destruct Hd as (X & _). injection X as <-. reflexivity. } subst d.
  rewrite E2. rewrite (unpack_tok_again p t1 t2 Hd B5 B8). cbn [bind]. rewrite B5, B1, (clear_memo _ _ B8).
  apply bind_ok in H. destruct H as ([] & G9 & H). rewrite G9. cbn [bind].
  apply bind_ok in H. destruct H as ([] & G10 & H). rewrite G10. cbn [bind].
  apply bind_ok in H. destruct H as ([] & G11 & H). rewrite G11. cbn [bind].
  apply bind_ok in H. destruct H as ([] & G12 & H). rewrite G12. cbn [bind].
  apply bind_ok in H. destruct H as ([] & G13 & H).
  apply guard_ok, N.leb_le in G12.
  rewrite bind_guard_true by (unfold u64_ok; apply N.ltb_lt; clear -G12 Room; lia).
  apply bind_ok in H. destruct H as (dx & Hdx & H).
  assert (DX : dx = withhold fee (t_exts t1) /\
    (if fee =? 0 then Ok (t_exts t2) else of_option (add_withheld fee (t_exts t2)) EInvalidAccountData) = Ok (withhold fee (t_exts t2))).
  { destruct (fee =? 0) eqn:F.
    - apply N.eqb_eq in F. injection Hdx as <-. rewrite F, !withhold_0. split; reflexivity.
    - destruct (add_withheld fee (t_exts t1)) as [y|] eqn:Y; [|discriminate Hdx]. cbn in Hdx. injection Hdx as <-.
      split; [exact (withhold_add _ _ _ Y)|].
      assert (Z : ext_fee m = None -> False).
      { intro Z. unfold transfer_fee_of in Hf. rewrite Z in Hf. injection Hf as <-. discriminate F. }
      rewrite (add_withheld_again _ _ _ _ Y B8) by (destruct Room as [_ [Z0 | Z0]]; [destruct (Z Z0)|clear -Z0 G12; lia]). reflexivity. }
  destruct DX as [-> ->]. cbn [bind].
  apply bind_ok in H. destruct H as (l1a & S1 & H). apply set_data_inv in S1. destruct S1 as (W1 & O1 & ->).
  rewrite set_data_ok; [|exact W1|rewrite (UA src Ks Nse Nsw); exact O1]. cbn [bind]. rewrite (UA src Ks Nse Nsw).
  apply bind_ok in H. destruct H as (l1b & S2 & H). apply set_data_inv in S2. destruct S2 as (W2 & O2 & ->).
  rewrite upd_other in O2 by congruence.
  rewrite set_data_ok; [|exact W2|rewrite upd_other by congruence; rewrite UO; exact O2]. cbn [bind]. rewrite !(upd_other _ src) in * by congruence.
  set (a1 := with_data (DTok (set_texts (withhold fee (t_exts t1)) (set_amount (t_amount t1 + (amount - fee)) t1))) (l1 esc)) in *.
  set (a2 := with_data (DTok (set_texts (withhold fee (t_exts t2)) (set_amount (t_amount t2 + (amount - fee)) t2))) (l2 esc)) in *.
  set (x := with_data (DTok (set_amount (t_amount s1 - amount) s1)) (l1 src)) in *.
  assert (NB2 : no_balance (set_texts (withhold fee (t_exts t2)) (set_amount (t_amount t2 + (amount - fee)) t2)) =
                no_balance (set_texts (withhold fee (t_exts t1)) (set_amount (t_amount t1 + (amount - fee)) t1))).
  { apply no_balance_intro; cbn; try assumption. rewrite !withhold_clear. exact B8. }
  assert (U2 : up_to_turnover ks esc w (upd (upd l1 src x) esc a1) (upd (upd l2 src x) esc a2)).
  { apply utt_upd_esc; [apply utt_upd; auto | exact New | cbn; exact UO |]. eexists _, _. split; [reflexivity|]. split; [reflexivity|]. exact NB2. }
  apply bind_ok in H. destruct H as (l1c & S3 & H).
  unfold move_native in *. unfold run_hook in *. rewrite Hook in *.
  destruct (t_native s) as [rs|].
  2:{ injection S3 as <-. injection H as <-. cbn [bind]. eexists. split; [reflexivity|]. split; [exact U2|]. rewrite !upd_other by congruence. reflexivity. }
  apply move_lamports_inv in S3. destruct S3 as (_ & _ & O3 & L3 & E3). cbv zeta in E3. injection H as <-.
  rewrite upd_other in O3, L3 by congruence. rewrite upd_same in O3, L3.
  unfold move_lamports. rewrite W1, W2. cbn [andb]. rewrite bind_guard_true by reflexivity.
  rewrite (upd_other _ esc _ src) by congruence. rewrite upd_same.
  rewrite bind_guard_true by (apply pk_eqb_eq; exact O3). rewrite bind_guard_true by (apply N.leb_le; exact L3).
  cbn [bind]. eexists. split; [reflexivity|]. split; [|rewrite !upd_other by congruence; reflexivity]. rewrite E3.
  rewrite !(upd_other _ esc _ src), !upd_same, !(upd_other _ src _ esc), !upd_same by congruence.
  apply utt_upd_esc; [apply utt_upd; auto | exact New | cbn; exact UO |]. eexists _, _. split; [reflexivity|]. split; [reflexivity|]. exact NB2.
Qed.

(** ** A transfer out of the escrow *)
Lemma transfer_out ks esc w e p cpi ms mnt dst auth signers amount dec xf l1 l2 l1' m :
  up_to_turnover ks esc w l1 l2 -> In dst ks -> In mnt ks -> In auth ks -> esc <> w -> dst <> esc -> dst <> w -> mnt <> esc -> mnt <> w ->
  a_data (l1 mnt) = DMint m -> ext_hook m = None ->
  (forall t, a_data (l2 esc) = DTok t -> amount <= t_amount t /\ (t_native t <> None -> amount <= a_lamports (l2 esc))) ->
  tok_transfer_checked e p cpi ms esc mnt dst auth signers amount dec xf l1 = Ok l1' ->
  exists l2', tok_transfer_checked e p cpi ms esc mnt dst auth signers amount dec xf l2 = Ok l2' /\ up_to_turnover ks esc w l1' l2'.
Proof.
  intros U Kd Km Ka New Nde Ndw Nme Nmw Dm Hook Room H.
  destruct U as (UA & (UO & t1 & t2 & E1 & E2 & NB) & UW). assert (U : up_to_turnover ks esc w l1 l2).
  { split; [exact UA|]. split; [split; [exact UO|]|exact UW]. exists t1, t2. auto. }
  destruct (Room t2 E2) as [Room1 Room2]. pose proof (no_balance_inv _ _ NB) as (B1 & B2 & B3 & B4 & B5 & B6 & B7 & B8).
  unfold tok_transfer_checked in *. rewrite (UA dst Kd Nde Ndw), (UA mnt Km Nme Nmw), E2.
  apply bind_ok in H. destruct H as (s & Hs & H). rewrite E1 in Hs.
  assert (s = t1). { apply unpack_tok_inv in Hs. destruct Hs as (X & _). injection X as <-. reflexivity. } subst s.
  rewrite (unpack_tok_again p t1 t2 Hs B5 B8). cbn [bind]. rewrite B5, (clear_has _ _ _ B8), B1.
  apply bind_ok in H. destruct H as ([] & G1 & H). rewrite G1. cbn [bind].
  apply bind_ok in H. destruct H as ([] & G2 & H). rewrite bind_guard_true by (apply N.leb_le; exact Room1).
  apply bind_ok in H. destruct H as ([] & G3 & H). rewrite G3. cbn [bind].
  apply bind_ok in H. destruct H as ([] & G4 & H). rewrite G4. cbn [bind].
  apply bind_ok in H. destruct H as (m' & Hm & H). rewrite Hm. cbn [bind].
  assert (m' = m). { apply unpack_mint_inv in Hm. destruct Hm as (X & _). rewrite Dm in X. injection X as <-. reflexivity. } subst m'.
  apply bind_ok in H. destruct H as ([] & G5 & H). rewrite G5. cbn [bind].
  apply bind_ok in H. destruct H as (fee & Hf & H). rewrite Hf. cbn [bind].
  apply bind_ok in H. destruct H as ([] & G6 & H). rewrite G6. cbn [bind].
  apply bind_ok in H. destruct H as ([] & G7 & H). rewrite G7. cbn [bind]. cbv zeta in *.
  apply bind_ok in H. destruct H as (s1 & Ha & H).
  assert (Es : pk_eqb esc dst = false) by (apply pk_eqb_neq; congruence). rewrite Es in *.
  destruct (utt_debit _ _ _ _ _ _ _ _ _ _ _ _ _ _ _ _ U Ka NB Ha) as (s2 & Ha2 & NB1 & Am2 & Ex2). rewrite Ha2. cbn [bind].
  apply bind_ok in H. destruct H as ([] & G8 & H). rewrite UO. rewrite G8. cbn [bind].
  apply bind_ok in H. destruct H as (d & Hd & H). rewrite Hd. cbn [bind].
  apply bind_ok in H. destruct H as ([] & G9 & H). rewrite G9. cbn [bind].
  apply bind_ok in H. destruct H as ([] & G10 & H). rewrite G10. cbn [bind].
  apply bind_ok in H. destruct H as ([] & G11 & H). rewrite G11. cbn [bind].
  apply bind_ok in H. destruct H as ([] & G12 & H). rewrite G12. cbn [bind].
  apply bind_ok in H. destruct H as ([] & G13 & H). rewrite G13. cbn [bind].
  apply bind_ok in H. destruct H as (dx & Hdx & H). rewrite Hdx. cbn [bind].
  apply bind_ok in H. destruct H as (l1a & S1 & H). apply set_data_inv in S1. destruct S1 as (W1 & O1 & ->).
  rewrite set_data_ok; [|exact W1|rewrite UO; exact O1]. cbn [bind].
  apply bind_ok in H. destruct H as (l1b & S2 & H). apply set_data_inv in S2. destruct S2 as (W2 & O2 & ->).
  rewrite upd_other in O2 by congruence.
  rewrite set_data_ok; [|exact W2|rewrite upd_other by congruence; rewrite (UA dst Kd Nde Ndw); exact O2]. cbn [bind].
  rewrite !(upd_other _ esc _ dst) in * by congruence. rewrite (UA dst Kd Nde Ndw).
  set (a1 := with_data (DTok (set_amount (t_amount s1 - amount) s1)) (l1 esc)) in *.
  set (a2 := with_data (DTok (set_amount (t_amount s2 - amount) s2)) (l2 esc)) in *.
  set (x := with_data (DTok (set_texts dx (set_amount (t_amount d + (amount - fee)) d))) (l1 dst)) in *.
  assert (NB2 : no_balance (set_amount (t_amount s2 - amount) s2) = no_balance (set_amount (t_amount s1 - amount) s1)) by exact NB1.
  assert (U2 : up_to_turnover ks esc w (upd (upd l1 esc a1) dst x) (upd (upd l2 esc a2) dst x)).
  { apply utt_upd; auto. apply utt_upd_esc; [exact U | exact New | cbn; exact UO |]. eexists _, _. split; [reflexivity|]. split; [reflexivity|]. exact NB2. }
  apply bind_ok in H. destruct H as (l1c & S3 & H).
  unfold move_native in *. unfold run_hook in *. rewrite Hook in *. rewrite B6 in *.
  destruct (t_native t1) as [rs|].
  2:{ injection S3 as <-. injection H as <-. cbn [bind]. eexists. split; [reflexivity | exact U2]. }
  apply move_lamports_inv in S3. destruct S3 as (_ & _ & O3 & L3 & E3). cbv zeta in E3. injection H as <-.
  unfold move_lamports. rewrite W1, W2. cbn [andb]. rewrite bind_guard_true by reflexivity.
  rewrite (upd_other _ dst _ esc) by congruence. rewrite upd_same.
  rewrite bind_guard_true by (apply pk_eqb_eq; cbn; rewrite UO; exact O1).
  rewrite bind_guard_true by (apply N.leb_le; cbn; apply Room2; discriminate).
  cbn [bind]. eexists. split; [reflexivity|]. rewrite E3.
  rewrite !(upd_other _ dst _ esc), !upd_same, !(upd_other _ esc _ dst), !upd_same by congruence.
  apply utt_upd; auto. apply utt_upd_esc; [exact U2 | exact New | cbn; exact UO |]. eexists _, _. split; [reflexivity|]. split; [reflexivity|]. exact NB2.
Qed.

(** ** Minting and burning wrapped tokens *)
Lemma no_supply_inv m1 m2 : no_supply m2 = no_supply m1 ->
  m_auth m2 = m_auth m1 /\ m_decimals m2 = m_decimals m1 /\ m_init m2 = m_init m1 /\ m_freeze m2 = m_freeze m1 /\ m_exts m2 = m_exts m1 /\ m_len m2 = m_len m1.
Proof. unfold no_supply. intro H. injection H as A B C D E F. repeat split; assumption. Qed.
Lemma unpack_mint_again p m1 m2 : unpack_mint p (DMint m1) = Ok m1 -> no_supply m2 = no_supply m1 -> unpack_mint p (DMint m2) = Ok m2.
Proof.
  intros H S. apply no_supply_inv in S. destruct S as (_ & _ & I & _ & X & _). apply unpack_mint_inv in H. destruct H as (_ & H1 & H2).
  apply unpack_mint_ok; [rewrite I; exact H1|]. rewrite X. exact H2.
Qed.
Lemma ext_eqs m1 m2 : m_exts m2 = m_exts m1 ->
  ext_nontransferable m2 = ext_nontransferable m1 /\ ext_paused m2 = ext_paused m1 /\ ext_conf_mint_burn m2 = ext_conf_mint_burn m1 /\
  ext_permanent_delegate m2 = ext_permanent_delegate m1.
Proof.
  intro X. unfold ext_nontransferable, ext_paused, ext_conf_mint_burn, ext_permanent_delegate. rewrite X. repeat split.
Qed.
Lemma mint_to_again ks esc w p ms dst auth signers amount l1 l2 l1' :
  up_to_turnover ks esc w l1 l2 -> In dst ks -> In auth ks -> esc <> w -> dst <> esc -> dst <> w ->
  (forall m, a_data (l2 w) = DMint m -> m_supply m + amount < two64) ->
  tok_mint_to p ms w dst auth signers amount l1 = Ok l1' ->
  exists l2', tok_mint_to p ms w dst auth signers amount l2 = Ok l2' /\ up_to_turnover ks esc w l1' l2'.
Proof.
  intros U Kd Ka New Nde Ndw Room H.
  destruct U as (UA & UE & UO & m1 & m2 & E1 & E2 & NS). assert (U : up_to_turnover ks esc w l1 l2).
  { split; [exact UA|]. split; [exact UE|]. split; [exact UO|]. exists m1, m2. auto. }
  specialize (Room m2 E2). pose proof (no_supply_inv _ _ NS) as (B1 & B2 & B3 & B4 & B5 & B6). destruct (ext_eqs _ _ B5) as (X1 & X2 & X3 & _).
  unfold tok_mint_to in *. rewrite (UA dst Kd Nde Ndw), E2.
  apply bind_ok in H. destruct H as (d & Hd & H). rewrite Hd. cbn [bind].
  apply bind_ok in H. destruct H as ([] & G1 & H). rewrite G1. cbn [bind].
  apply bind_ok in H. destruct H as ([] & G2 & H). rewrite G2. cbn [bind].
  apply bind_ok in H. destruct H as ([] & G3 & H). rewrite G3. cbn [bind].
  apply bind_ok in H. destruct H as (m' & Hm & H). rewrite E1 in Hm.
  assert (m' = m1). { apply unpack_mint_inv in Hm. destruct Hm as (X & _). injection X as <-. reflexivity. } subst m'.
  rewrite (unpack_mint_again p m1 m2 Hm NS). cbn [bind]. rewrite X1, X2, X3, B1.
  apply bind_ok in H. destruct H as ([] & G4 & H). rewrite G4. cbn [bind].
  apply bind_ok in H. destruct H as ([] & G5 & H). rewrite G5. cbn [bind].
  apply bind_ok in H. destruct H as ([] & G6 & H). rewrite G6. cbn [bind].
  apply bind_ok in H. destruct H as (a & Ha & H). rewrite Ha. cbn [bind].
  apply bind_ok in H. destruct H as ([] & G7 & H). rewrite (utt_validate _ _ _ _ _ _ _ _ _ _ U Ka). rewrite G7. cbn [bind].
  apply bind_ok in H. destruct H as ([] & G8 & H). rewrite G8. cbn [bind].
  apply bind_ok in H. destruct H as ([] & G9 & H). rewrite bind_guard_true by (unfold u64_ok; apply N.ltb_lt; exact Room).
  apply bind_ok in H. destruct H as (l1a & S1 & H). apply set_data_inv in S1. destruct S1 as (W1 & O1 & ->).
  rewrite set_data_ok; [|exact W1|rewrite (UA dst Kd Nde Ndw); exact O1]. cbn [bind]. rewrite (UA dst Kd Nde Ndw).
  apply set_data_inv in H. destruct H as (W2 & O2 & ->). rewrite upd_other in O2 by congruence.
  rewrite set_data_ok; [|exact W2|rewrite upd_other by congruence; rewrite UO; exact O2]. eexists. split; [reflexivity|].
  rewrite !(upd_other _ dst _ w) by congruence.
  apply utt_upd_w; [apply utt_upd; auto | exact New | cbn; exact UO |]. eexists _, _. split; [reflexivity|]. split; [reflexivity|]. exact NS.
Qed.
Lemma burn_again ks esc w p cpi ms src auth signers amount l1 l2 l1' :
  up_to_turnover ks esc w l1 l2 -> In src ks -> In auth ks -> esc <> w -> src <> esc -> src <> w ->
  (forall m, a_data (l2 w) = DMint m -> amount <= m_supply m) ->
  tok_burn p cpi ms src w auth signers amount l1 = Ok l1' ->
  exists l2', tok_burn p cpi ms src w auth signers amount l2 = Ok l2' /\ up_to_turnover ks esc w l1' l2' /\ l2' esc = l2 esc.
Proof.
  intros U Kd Ka New Nde Ndw Room H.
  destruct U as (UA & UE & UO & m1 & m2 & E1 & E2 & NS). assert (U : up_to_turnover ks esc w l1 l2).
  { split; [exact UA|]. split; [exact UE|]. split; [exact UO|]. exists m1, m2. auto. }
  specialize (Room m2 E2). pose proof (no_supply_inv _ _ NS) as (B1 & B2 & B3 & B4 & B5 & B6). destruct (ext_eqs _ _ B5) as (X1 & X2 & X3 & X4).
  unfold tok_burn in *. rewrite (UA src Kd Nde Ndw), E2.
  apply bind_ok in H. destruct H as (d & Hd & H). rewrite Hd. cbn [bind].
  apply bind_ok in H. destruct H as (m' & Hm & H). rewrite E1 in Hm.
  assert (m' = m1). { apply unpack_mint_inv in Hm. destruct Hm as (X & _). injection X as <-. reflexivity. } subst m'.
  rewrite (unpack_mint_again p m1 m2 Hm NS). cbn [bind]. rewrite X2, X3.
  apply bind_ok in H. destruct H as ([] & G1 & H). rewrite G1. cbn [bind].
  apply bind_ok in H. destruct H as ([] & G2 & H). rewrite G2. cbn [bind].
  apply bind_ok in H. destruct H as ([] & G3 & H). rewrite G3. cbn [bind].
  apply bind_ok in H. destruct H as ([] & G4 & H). rewrite G4. cbn [bind].
  apply bind_ok in H. destruct H as ([] & G5 & H). rewrite G5. cbn [bind].
  apply bind_ok in H. destruct H as ([] & G6 & H). rewrite G6. cbn [bind].
  apply bind_ok in H. destruct H as (s1 & Ha & H).
  assert (Ha2 : (if pk_eqb (t_owner d) system_id || pk_eqb (t_owner d) incinerator_id then Ok d
                 else authorize_debit p l2 ms cpi d m2 auth signers amount false) = Ok s1).
  { clear -Ha U Ka X4. unfold authorize_debit in *. rewrite !(utt_validate _ _ _ _ _ _ _ _ _ _ U Ka), X4. exact Ha. }
  rewrite Ha2. cbn [bind].
  apply bind_ok in H. destruct H as ([] & G9 & H). rewrite bind_guard_true by (apply N.leb_le; exact Room).
  apply bind_ok in H. destruct H as (l1a & S1 & H). apply set_data_inv in S1. destruct S1 as (W1 & O1 & ->).
  rewrite set_data_ok; [|exact W1|rewrite (UA src Kd Nde Ndw); exact O1]. cbn [bind]. rewrite (UA src Kd Nde Ndw).
  apply set_data_inv in H. destruct H as (W2 & O2 & ->). rewrite upd_other in O2 by congruence.
  rewrite set_data_ok; [|exact W2|rewrite upd_other by congruence; rewrite UO; exact O2]. eexists. split; [reflexivity|]. split; [|rewrite !upd_other by congruence; reflexivity].
  rewrite !(upd_other _ src _ w) by congruence.
  apply utt_upd_w; [apply utt_upd; auto | exact New | cbn; exact UO |]. eexists _, _. split; [reflexivity|]. split; [reflexivity|]. exact NS.
Qed.

(** ** Calls *)
Lemma invoke_again (R : ledger -> ledger -> Prop) e c borrowed ix passed seeds l1 l2 l1' :
  (forall x, exec_program e (ix_prog ix) (ix_metas ix) (ix_body ix) l1 = Ok x ->
     exists y, exec_program e (ix_prog ix) (ix_metas ix) (ix_body ix) l2 = Ok y /\ R x y) ->
  invoke_signed e c borrowed ix passed seeds l1 = Ok l1' ->
  exists l2', invoke_signed e c borrowed ix passed seeds l2 = Ok l2' /\ R l1' l2'.
Proof.
  intros X H. unfold invoke_signed in *.
  apply bind_ok in H. destruct H as ([] & G1 & H). rewrite G1. cbn [bind].
  apply bind_ok in H. destruct H as (ps & G2 & H). rewrite G2. cbn [bind].
  apply bind_ok in H. destruct H as ([] & G3 & H). rewrite G3. cbn [bind].
  apply bind_ok in H. destruct H as ([] & G4 & H). rewrite G4. cbn [bind].
  apply bind_ok in H. destruct H as ([] & G5 & H). rewrite G5. cbn [bind].
  apply bind_ok in H. destruct H as ([] & G6 & H). rewrite G6. cbn [bind]. exact (X _ H).
Qed.
Lemma tok_exec_transfer e p l0 src mnt dst auth extra n d l :
  tok_exec e p true (transfer_metas l0 src mnt dst auth extra) (TiTransferChecked n d) l =
  tok_transfer_checked e p true (transfer_metas l0 src mnt dst auth extra) src mnt dst auth (map i_key extra) n d None l.
Proof. reflexivity. Qed.
Lemma tok_exec_transfer_fee e p l0 src mnt dst auth extra n d f l : p = t22_id ->
  tok_exec e p true (transfer_metas l0 src mnt dst auth extra) (TiTransferCheckedWithFee n d f) l =
  tok_transfer_checked e p true (transfer_metas l0 src mnt dst auth extra) src mnt dst auth (map i_key extra) n d (Some f) l.
Proof. intros ->. reflexivity. Qed.
Lemma metas_again ks esc w l1 l2 src mnt dst auth extra : up_to_turnover ks esc w l1 l2 -> In auth ks ->
  transfer_metas l2 src mnt dst auth extra = transfer_metas l1 src mnt dst auth extra.
Proof. intros U K. unfold transfer_metas. rewrite (utt_auth_signer _ _ _ _ _ _ U K). reflexivity. Qed.
Lemma utt_distinct ks esc w l1 l2 : up_to_turnover ks esc w l1 l2 -> esc <> w.
Proof. intros (_ & (_ & t1 & _ & A & _) & _ & m1 & _ & B & _) E. rewrite E in A. rewrite A in B. discriminate B. Qed.

(** ** Wrap *)
Lemma wrap_again e accounts more n l1 l2 l1' r w a up wp s u esc ta m :
  map i_key accounts = [r; w; a; up; wp; s; u; esc; ta] ++ more ->
  up_to_turnover (keys accounts) esc w l1 l2 -> ignores_turnover e ->
  s <> esc -> s <> w -> r <> esc -> r <> w -> u <> esc -> u <> w -> a_data (l1 u) = DMint m -> ext_hook m = None ->
  (forall t, a_data (l2 esc) = DTok t -> t_amount t + n < two64 /\ (ext_fee m = None \/ withheld_of (t_exts t) + n < two64)) ->
  (forall x, a_data (l2 w) = DMint x -> m_supply x + n < two64) ->
  process_wrap e (mkCtx tw_id accounts) n l1 = Ok l1' ->
  exists l2', process_wrap e (mkCtx tw_id accounts) n l2 = Ok l2' /\ up_to_turnover (keys accounts) esc w l1' l2'.
Proof.
  intros Hk U Ig Nse Nsw Nre Nrw Nue Nuw Dm Hook Re Rw H. pose proof (utt_distinct _ _ _ _ _ U) as New.
  assert (Inn : forall k, In k [r; w; a; up; wp; s; u; esc; ta] -> In k (keys accounts)).
  { intros k K. unfold keys. rewrite Hk. apply in_or_app. left. exact K. }
  destruct U as (UA & (UO & t1 & t2 & E1 & E2 & NB) & UW). assert (U : up_to_turnover (keys accounts) esc w l1 l2).
  { split; [exact UA|]. split; [split; [exact UO|]|exact UW]. exists t1, t2. auto. }
  pose proof (no_balance_inv _ _ NB) as (B1 & B2 & B3 & B4 & B5 & B6 & B7 & B8).
  destruct (Ig accounts esc w l1 l2 U) as [Ex _].
  unfold process_wrap in *.
  apply bind_ok in H. destruct H as ([] & G0 & H). rewrite G0. cbn [bind]. cbn [c_infos] in *.
  destruct accounts as [|ri [|wi [|ai [|upi [|wpi [|si [|ui [|ei [|ti additional]]]]]]]]] eqn:Hi; try discriminate H.
  rewrite <- Hi in *. assert (Hk' := Hk). rewrite Hi in Hk'. cbn [map app] in Hk'. injection Hk' as K0 K1 K2 K3 K4 K5 K6 K7 K8 Kr.
  cbv zeta in *. rewrite K0, K1, K2, K3, K4, K5, K6, K7, K8 in *.
  apply bind_ok in H. destruct H as (w' & G1 & H). rewrite G1. cbn [bind].
  apply bind_ok in H. destruct H as ([] & G2 & H). rewrite G2. cbn [bind].
  apply bind_ok in H. destruct H as (am & G3 & H). rewrite G3. cbn [bind].
  apply bind_ok in H. destruct H as ([] & G4 & H). rewrite G4. cbn [bind].
  apply bind_ok in H. destruct H as (x & G5 & H). rewrite G5. cbn [bind].
  apply bind_ok in H. destruct H as ([] & G6 & H). rewrite G6. cbn [bind].
  apply bind_ok in H. destruct H as (et & G7 & H). rewrite E1 in G7. apply pod_unpack_tok_inv in G7. destruct G7 as (X & St). injection X as <-.
  rewrite E2, (pod_unpack_tok_ok t2) by (rewrite B5; exact St). cbn [bind]. rewrite B2.
  apply bind_ok in H. destruct H as ([] & G8 & H). rewrite G8. cbn [bind].
  apply bind_ok in H. destruct H as (um & G9 & H). rewrite (utt_at _ _ _ _ _ u U) by (auto; apply Inn; cbn; tauto). rewrite G9. cbn [bind].
  apply bind_ok in H. destruct H as ([] & G10 & H). rewrite G10. cbn [bind].
  apply bind_ok in H. destruct H as (l1a & T1 & H).
  assert (T2 : exists l2a, (if pk_eqb up t22_id then
               invoke_transfer_checked_with_fee e (mkCtx tw_id accounts) [u] up s u esc ta additional n (m_decimals um) (match ext_fee um with
                 | Some cfg => match calculate_epoch_fee cfg (e_epoch e) n with Some f => f | None => 0 end
                 | None => 0
                 end) [] l2
             else
               invoke_transfer_checked e (mkCtx tw_id accounts) [u] up s u esc ta additional n (m_decimals um) [] l2) = Ok l2a /\
             up_to_turnover (keys accounts) esc w l1a l2a /\ l2a w = l2 w).
  { destruct (pk_eqb up t22_id) eqn:Ep.
    - unfold invoke_transfer_checked_with_fee in *.
      apply bind_ok in T1. destruct T1 as (ix & I1 & T1). rewrite I1. cbn [bind]. cbn [c_infos] in *.
      apply bind_ok in T1. destruct T1 as (extra & I2 & T1). rewrite Ex, I2. cbn [bind]. cbv zeta in *.
      rewrite (metas_again _ _ _ _ _ s u esc ta extra U) by (apply Inn; cbn; tauto).
      revert T1. apply (invoke_again (fun x y => up_to_turnover (keys accounts) esc w x y /\ y w = l2 w)). cbn [ix_prog ix_metas ix_body]. intros y.
      apply pk_eqb_eq in Ep. rewrite !exec_program_tok by (right; exact Ep). rewrite !(tok_exec_transfer_fee _ _ _ _ _ _ _ _ _ _ _ _ Ep).
      intro T. apply (transfer_in (keys accounts) esc w e up true _ s u ta (map i_key extra) n (m_decimals um) _ l1 l2 y m);
        try assumption; apply Inn; cbn; tauto.
    - unfold invoke_transfer_checked in *.
      apply bind_ok in T1. destruct T1 as (ix & I1 & T1). rewrite I1. cbn [bind]. cbn [c_infos] in *.
      apply bind_ok in T1. destruct T1 as (extra & I2 & T1). rewrite Ex, I2. cbn [bind]. cbv zeta in *.
      rewrite (metas_again _ _ _ _ _ s u esc ta extra U) by (apply Inn; cbn; tauto).
      revert T1. apply (invoke_again (fun x y => up_to_turnover (keys accounts) esc w x y /\ y w = l2 w)). cbn [ix_prog ix_metas ix_body]. intros y.
      unfold ix_transfer_checked in I1. apply bind_ok in I1. destruct I1 as ([] & I1 & _). apply check_spl_ok in I1.
      rewrite !exec_program_tok by exact I1. rewrite !tok_exec_transfer.
      intro T. apply (transfer_in (keys accounts) esc w e up true _ s u ta (map i_key extra) n (m_decimals um) _ l1 l2 y m);
        try assumption; apply Inn; cbn; tauto. }
  destruct T2 as (l2a & -> & Ua & Wa). cbn [bind].
  apply bind_ok in H. destruct H as (ix & I1 & H). rewrite I1. cbn [bind].
  unfold ix_mint_to in I1. apply bind_ok in I1. destruct I1 as ([] & I1 & I2). apply check_spl_ok in I1. injection I2 as <-.
  revert H. apply invoke_again. cbn [ix_prog ix_metas ix_body]. intro y. rewrite !exec_program_tok by exact I1.
  intro T. apply (mint_to_again (keys accounts) esc w wp [meta_w w false; meta_w r false; meta_r a true] r a [] _ l1a l2a y) in T;
    try assumption; try (apply Inn; cbn; tauto).
  intros x2. rewrite Wa. intro X2. specialize (Rw x2 X2). lia.
Qed.

(** ** Unwrap *)
Lemma unwrap_again e accounts more n l1 l2 l1' esc r a u wp up s w ta m :
  map i_key accounts = [esc; r; a; u; wp; up; s; w; ta] ++ more ->
  up_to_turnover (keys accounts) esc w l1 l2 -> ignores_turnover e ->
  s <> esc -> s <> w -> r <> esc -> r <> w -> u <> esc -> u <> w -> s <> u -> a_data (l1 u) = DMint m -> ext_hook m = None ->
  (forall t, a_data (l2 esc) = DTok t -> n <= t_amount t /\ (t_native t <> None -> n <= a_lamports (l2 esc))) ->
  (forall x, a_data (l2 w) = DMint x -> n <= m_supply x) ->
  process_unwrap e (mkCtx tw_id accounts) n l1 = Ok l1' ->
  exists l2', process_unwrap e (mkCtx tw_id accounts) n l2 = Ok l2' /\ up_to_turnover (keys accounts) esc w l1' l2'.
Proof.
  intros Hk U Ig Nse Nsw Nre Nrw Nue Nuw Nsu Dm Hook Re Rw H. pose proof (utt_distinct _ _ _ _ _ U) as New.
  assert (Inn : forall k, In k [esc; r; a; u; wp; up; s; w; ta] -> In k (keys accounts)).
  { intros k K. unfold keys. rewrite Hk. apply in_or_app. left. exact K. }
  destruct (Ig accounts esc w l1 l2 U) as [_ Em].
  unfold process_unwrap in *.
  apply bind_ok in H. destruct H as ([] & G0 & H). rewrite G0. cbn [bind]. cbn [c_infos] in *.
  destruct accounts as [|ei [|ri [|ai [|ui [|wpi [|upi [|si [|wi [|ti additional]]]]]]]]] eqn:Hi; try discriminate H.
  rewrite <- Hi in *. assert (Hk' := Hk). rewrite Hi in Hk'. cbn [map app] in Hk'. injection Hk' as K0 K1 K2 K3 K4 K5 K6 K7 K8 Kr.
  cbv zeta in *. cbn [map] in *. rewrite K0, K1, K2, K3, K4, K5, K6, K7, K8 in *.
  apply bind_ok in H. destruct H as (w' & G1 & H). rewrite G1. cbn [bind].
  apply bind_ok in H. destruct H as ([] & G2 & H). rewrite G2. cbn [bind].
  apply bind_ok in H. destruct H as (am & G3 & H). rewrite G3. cbn [bind].
  apply bind_ok in H. destruct H as ([] & G4 & H). rewrite G4. cbn [bind].
  apply bind_ok in H. destruct H as (x & G5 & H). rewrite G5. cbn [bind].
  apply bind_ok in H. destruct H as ([] & G6 & H). rewrite G6. cbn [bind].
  apply bind_ok in H. destruct H as (msk & G7 & H).
  rewrite (Em ta additional); [|apply Inn; cbn; tauto|rewrite Hi; intros i I; do 9 right; exact I]. rewrite G7. cbn [bind].
  apply bind_ok in H. destruct H as (ix & I1 & H). rewrite I1. cbn [bind].
  unfold ix_burn in I1. apply bind_ok in I1. destruct I1 as ([] & I1 & I2). apply check_spl_ok in I1. injection I2 as <-.
  apply bind_ok in H. destruct H as (l1a & T1 & H). unfold invoke in *.
  apply (invoke_again (fun x y => (up_to_turnover (keys accounts) esc w x y /\ y esc = l2 esc) /\ x u = l1 u) _ _ _ _ _ _ l1 l2) in T1.
  2:{ cbn [ix_prog ix_metas ix_body]. intro y. rewrite !exec_program_tok by exact I1.
    assert (TE : forall l, tok_exec e wp true ([meta_w s false; meta_w w false; meta_r ta (is_nil msk)] ++ map (fun k => meta_r k true) msk) (TiBurn n) l =
      tok_burn wp true ([meta_w s false; meta_w w false; meta_r ta (is_nil msk)] ++ map (fun k => meta_r k true) msk) s w ta msk n l).
    { intro l. unfold tok_exec. cbn [map app i_key meta_w meta_r]. rewrite map_map. cbn [i_key meta_r]. rewrite map_id. reflexivity. }
    rewrite !TE. intro T.
    assert (X : y u = l1 u).
    { destruct (burn_inv _ _ _ _ _ _ _ _ _ _ T) as (? & ? & ? & _ & _ & _ & _ & _ & _ & _ & _ & _ & _ & _ & _ & _ & ->).
      rewrite !upd_other by auto. reflexivity. }
    apply (burn_again (keys accounts) esc w wp true _ s ta msk n l1 l2 y) in T; try assumption; try (apply Inn; cbn; tauto).
    destruct T as (y2 & T & T'). exists y2. split; [exact T|]. split; [exact T'|exact X]. }
  destruct T1 as (l2a & -> & (Ua & Ea) & Xu). cbn [bind].
  apply bind_ok in H. destruct H as (um & G8 & H). rewrite (utt_at _ _ _ _ _ u Ua) by (auto; apply Inn; cbn; tauto). rewrite G8. cbn [bind].
  assert (Du : a_data (l1a u) = DMint m) by (rewrite Xu; exact Dm).
  unfold invoke_transfer_checked in *.
  apply bind_ok in H. destruct H as (ix & J1 & H). rewrite J1. cbn [bind]. cbn [c_infos] in *.
  destruct (Ig accounts esc w l1a l2a Ua) as [Ex _].
  apply bind_ok in H. destruct H as (extra & J2 & H). rewrite Ex, J2. cbn [bind]. cbv zeta in *.
  rewrite (metas_again _ _ _ _ _ esc u r a extra Ua) by (apply Inn; cbn; tauto).
  revert H. apply invoke_again. cbn [ix_prog ix_metas ix_body]. intros y.
  unfold ix_transfer_checked in J1. apply bind_ok in J1. destruct J1 as ([] & J1 & _). apply check_spl_ok in J1.
  rewrite !exec_program_tok by exact J1. rewrite !tok_exec_transfer.
  intro T. apply (transfer_out (keys accounts) esc w e up true _ u r a (map i_key extra) n (m_decimals um) None l1a l2a y m);
    try assumption; try (apply Inn; cbn; tauto). rewrite Ea. exact Re.
Qed.
