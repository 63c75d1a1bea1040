(** * SpecLemmas.v — connecting the specification vocabulary with the model. *)
From Verif Require Import Base Codec State Pda TokenProg Cpi Meta Processor Tac CodecProofs PdaProofs TokProofs FrameProofs ProcProofs Spec.

Lemma outcome_instr e accounts ix l :
  instr_wf ix -> outcome e accounts ix l = process_instr e (mkCtx tw_id accounts) (map_instr (e_key_of_bytes e) ix) l.
Proof. intro H. unfold outcome, process_instruction. rewrite unpack_pack by exact H. reflexivity. Qed.

Lemma signed_is_sig accounts k : signed accounts k <-> is_sig accounts k = true.
Proof. symmetry. apply is_sig_In. Qed.
Lemma signed_for_mono prog l f g k : (forall x, f x = true -> g x = true) -> signed_for prog l f k -> signed_for prog l g k.
Proof.
  intros H [Hk|(m & A & B & C)]; [left; auto|]. right. exists m. split; [exact A|]. split; [exact B|].
  pose proof (filter_length_le f g (ms_signers m) (fun x _ => H x)). lia.
Qed.
Lemma signed_for_signed_by accounts l prog k f :
  (forall x, f x = true -> is_sig accounts x = true) -> signed_for prog l f k -> signed_by accounts l prog k.
Proof.
  intros H Hs. apply (signed_for_mono _ _ _ (is_sig accounts)) in Hs; [|exact H].
  destruct Hs as [Hs|Hs]; [left; now apply signed_is_sig|right; exact Hs].
Qed.

(** ** Fees *)
Lemma ceil_div_least a : least (fun x => a <= x * 10000) (ceil_div a 10000).
Proof.
  unfold least, ceil_div. split.
  - pose proof (N.div_mod (a + 10000 - 1) 10000 ltac:(lia)). pose proof (N.mod_lt (a + 10000 - 1) 10000 ltac:(lia)). lia.
  - intros x Hx. apply N.lt_succ_r. apply N.div_lt_upper_bound; lia.
Qed.
Lemma calc_fee_at r amount f : calc_fee r amount = Some f -> fee_at r amount f.
Proof.
  unfold calc_fee. destruct ((tf_bps r =? 0) || (amount =? 0)) eqn:E; intro H.
  - inversion H; subst. exists 0. split.
    + split; [|intros; lia]. apply orb_true_iff in E. destruct E as [E|E]; apply N.eqb_eq in E; rewrite E; lia.
    + now rewrite N.min_0_l.
  - cbv zeta in H. destruct (ceil_div (amount * tf_bps r) 10000 <? two64); inversion H; subst.
    exists (ceil_div (amount * tf_bps r) 10000). split; [apply ceil_div_least|reflexivity].
Qed.
Lemma transfer_fee_of_for e m amount f : transfer_fee_of e m amount = Ok f -> fee_for m (e_epoch e) amount f.
Proof.
  unfold transfer_fee_of, fee_for. destruct (ext_fee m) as [c|]; intro H; inv_ok; auto.
  unfold calculate_epoch_fee, epoch_fee in H. apply calc_fee_at in H.
  destruct (N.leb_spec (tf_epoch (fc_newer c)) (e_epoch e)); auto.
Qed.
Lemma fee_at_fun r n f f' : fee_at r n f -> fee_at r n f' -> f = f'.
Proof.
  intros (x & [A B] & ->) (y & [A' B'] & ->). assert (x = y); [|congruence].
  apply N.le_antisymm; auto.
Qed.
Lemma fee_for_fun m ep n f f' : fee_for m ep n f -> fee_for m ep n f' -> f = f'.
Proof.
  unfold fee_for. destruct (ext_fee m); [|congruence].
  intros [[A B]|[A B]] [[A' B']|[A' B']]; try lia; eapply fee_at_fun; eauto.
Qed.
Lemma transfer_fee_wrap_fee e m amount f : transfer_fee_of e m amount = Ok f -> wrap_fee e m amount = f.
Proof.
  unfold transfer_fee_of, wrap_fee. destruct (ext_fee m) as [c|]; intro H; inv_ok; auto. now rewrite H.
Qed.

(** ** Withheld fees *)
Lemma withheld_add fee t x : add_withheld fee (t_exts t) = Some x -> withheld (set_texts x t) = withheld t + fee.
Proof.
  unfold withheld. cbn [set_texts t_exts]. generalize (t_exts t) as xs. intro xs; revert x.
  induction xs as [|y xs IH]; intros x H; cbn [add_withheld] in H; [discriminate|].
  destruct y; try (destruct (add_withheld fee xs) as [z|]; [|discriminate]; inversion H; subst; cbn [fold_right]; rewrite (IH z) by reflexivity; lia).
  destruct (_ <? _); inversion H; subst. cbn [fold_right]. lia.
Qed.

(** ** Hooks *)
Lemma run_hook_shield e m ms n l l' k :
  run_hook e m ms n l = Ok l' -> ext_hook m = None \/ is_wr ms k = false \/ hook_may l k = false -> l' k = l k.
Proof.
  unfold run_hook. destruct (ext_hook m); intros H Hk; inv_ok; [|congruence].
  destruct Hk as [Hk|Hk]; [discriminate|]. subst l'. unfold confine.
  destruct Hk as [-> | ->]; [reflexivity|]. now rewrite andb_false_r.
Qed.
Lemma hook_may_false l k :
  hook_may l k = false <-> a_owner (l k) = t22_id \/ a_owner (l k) = tw_id \/ is_tw_pda k = true.
Proof.
  unfold hook_may. rewrite negb_false_iff, !orb_true_iff, !pk_eqb_eq. tauto.
Qed.
Lemma ext_hook_t22 prog d m p : token_program prog -> unpack_mint prog d = Ok m -> ext_hook m = Some p -> prog = t22_id.
Proof.
  intros [->| ->] Hm Hh; [|reflexivity]. apply unpack_mint_inv in Hm. destruct Hm as (_ & _ & Hx).
  unfold ext_hook in Hh. rewrite (Hx eq_refl) in Hh. discriminate.
Qed.

(** ** The effect of a transfer *)
Lemma transfer_effect e prog cpi ms src mnt dst auth signers amount dec expfee l l' :
  token_program prog ->
  tok_transfer_checked e prog cpi ms src mnt dst auth signers amount dec expfee l = Ok l' ->
  src <> dst ->
  exists s d m fee s1 dx,
    unpack_tok prog (a_data (l src)) = Ok s /\ unpack_tok prog (a_data (l dst)) = Ok d /\
    unpack_mint prog (a_data (l mnt)) = Ok m /\ t_mint s = mnt /\ t_mint d = mnt /\
    t_state s <> Frozen /\ t_state d <> Frozen /\ dec = m_decimals m /\
    transfer_fee_of e m amount = Ok fee /\ fee <= amount /\ amount <= t_amount s /\
    t_amount d + (amount - fee) < two64 /\ (expfee = None \/ expfee = Some fee) /\ ext_paused m = false /\
    authorize_debit prog l ms cpi s m auth signers amount false = Ok s1 /\
    a_owner (l src) = prog /\ a_owner (l dst) = prog /\ is_wr ms src = true /\ is_wr ms dst = true /\
    (if fee =? 0 then dx = t_exts d else add_withheld fee (t_exts d) = Some dx) /\
    native_part s amount <= a_lamports (l src) /\
    l' src = mkAcc (a_lamports (l src) - native_part s amount) (DTok (set_amount (t_amount s - amount) s1)) prog /\
    l' dst = mkAcc (a_lamports (l dst) + native_part s amount)
                   (DTok (set_texts dx (set_amount (t_amount d + (amount - fee)) d))) prog /\
    forall k, k <> src -> k <> dst ->
      ext_hook m = None \/ is_wr ms k = false \/ a_owner (l k) = t22_id \/ a_owner (l k) = tw_id \/ is_tw_pda k = true ->
      l' k = l k.
Proof.
  intros Htp H Hne. apply transfer_checked_inv in H.
  destruct H as (s & m & fee & s1 & Hs & Hfr & Ham & Hmm & Hm & Hdec & Hfee & Hpa & Hexp & Hau & Ho1 & Ho2 & H).
  destruct H as [[? _]|(_ & d & dx & l3 & Hd & Hdfr & Hdm & _ & Hfl & Hov & Hdx & W1 & W2 & Hnat & Hhook)]; [contradiction|].
  assert (Eself : pk_eqb src dst = false) by (apply pk_eqb_neq; exact Hne). rewrite Eself in Hau.
  exists s, d, m, fee, s1, dx.
  pose proof (authorize_debit_fields _ _ _ _ _ _ _ _ _ _ _ Hau) as (_ & _ & Hs1a & _).
  assert (E3 : native_part s amount <= a_lamports (l src) /\
    l3 src = mkAcc (a_lamports (l src) - native_part s amount) (DTok (set_amount (t_amount s - amount) s1)) prog /\
    l3 dst = mkAcc (a_lamports (l dst) + native_part s amount)
                   (DTok (set_texts dx (set_amount (t_amount d + (amount - fee)) d))) prog /\
    forall k, k <> src -> k <> dst -> l3 k = l k).
  { unfold move_native in Hnat. unfold native_part. destruct (t_native s).
    - apply move_lamports_inv in Hnat. destruct Hnat as (_ & _ & _ & Hle & ->). cbv zeta.
      unfold transfer_ledger in *. cbv zeta in *.
      rewrite !(upd_other _ dst _ src) in * by auto. rewrite !upd_same in *. cbn [with_data a_lamports] in Hle.
      split; [exact Hle|]. split; [|split].
      + unfold with_lamports, with_data. cbn. rewrite Hs1a, Ho1. reflexivity.
      + rewrite (upd_other _ src) by auto. rewrite upd_same.
        rewrite (upd_other _ src) by auto. unfold with_lamports, with_data. cbn. rewrite Ho2. reflexivity.
      + intros k K1 K2. rewrite !upd_other; auto.
    - inversion Hnat; subst l3. unfold transfer_ledger. cbv zeta.
      split; [lia|]. split; [|split].
      + rewrite upd_other by auto. rewrite upd_same. unfold with_data. rewrite Hs1a, Ho1, N.sub_0_r. reflexivity.
      + rewrite upd_same. rewrite (upd_other _ src) by auto. unfold with_data. rewrite Ho2, N.add_0_r. reflexivity.
      + intros k K1 K2. rewrite !upd_other; auto. }
  destruct E3 as (E0 & E1 & E2 & E3).
  assert (Sh : forall k, a_owner (l3 k) = prog -> l' k = l3 k).
  { intros k Hk. eapply run_hook_shield; [exact Hhook|]. destruct (ext_hook m) eqn:Eh; [|auto].
    right; right. apply hook_may_false. left. rewrite Hk. eapply ext_hook_t22; eauto. }
  repeat (split; [first [assumption | reflexivity]|]).
  split. { rewrite Sh by (rewrite E1; reflexivity). exact E1. }
  split. { rewrite Sh by (rewrite E2; reflexivity). exact E2. }
  intros k K1 K2 Hk. rewrite <- (E3 k K1 K2). eapply run_hook_shield; [exact Hhook|].
  destruct Hk as [Hk|[Hk|Hk]]; [auto|auto|]. right; right. apply hook_may_false. now rewrite E3.
Qed.

Lemma debit_delegation prog l ms cpi t m auth signers amount t1 :
  authorize_debit prog l ms cpi t m auth signers amount false = Ok t1 -> delegation_after t t1 auth amount.
Proof.
  intro H. apply authorize_debit_inv in H. destruct H as [_ [[_ ->]|[[A [B ->]]|[_ [-> _]]]]]; [left; auto| |left; auto].
  right. cbn. rewrite A. auto.
Qed.
Lemma debit_same prog l ms cpi t m auth signers amount t1 n :
  authorize_debit prog l ms cpi t m auth signers amount false = Ok t1 ->
  same_account t (set_amount n t1).
Proof.
  intro H. apply authorize_debit_fields in H. destruct H as (A & B & C & D & E & F & G).
  unfold same_account. cbn. rewrite G. auto 10.
Qed.
