(** * OrdersStep.v — lemmas for C66: what one order does to a reachable state, exactly. *)
From Coq Require Import Permutation.
From Verif Require Import Base Codec State Pda TokenProg Cpi Ata Meta Processor Tac CodecProofs PdaProofs TokProofs FrameProofs ProcProofs
  Spec SpecLemmas CreateProofs CreateSpec WrapProofs CloseProofs InvTok InvCons HistorySpec InvState InvTw InvHist EscProofs SolProofs HistProofs
  EscLive UnwrapLive WrapLive LocalSpec OrdersSpec OrdersProofs.

(** Nobody but token-wrap can debit the escrow of a mint that has no permanent delegate. *)
Lemma no_pd_anywhere e0 l u utp mu : Inv e0 l -> spl_or_t22 utp -> no_permanent_delegate u l -> mint_account l u utp mu -> ext_permanent_delegate mu = None.
Proof.
  intros I T NP (O & D & Im). destruct T as [E|E].
  - assert (X : m_exts mu = []) by (apply (spl_extless e0 l u mu I); [rewrite O; exact E|exact D]).
    unfold ext_permanent_delegate. rewrite X. reflexivity.
  - apply NP. rewrite E in O. split; [exact O|]. split; assumption.
Qed.
Lemma escrow_cannot_pay e0 e past l u utp wtp accounts n l' r w a esc ta mu :
  history e0 past l -> no_permanent_delegate u l -> same_curve e0 e -> no_tw_signer accounts -> spl_or_t22 utp ->
  w = wrapped_mint_of e u wtp -> a = authority_of e w -> esc = escrow_of e u utp wtp ->
  mint_account l u utp mu -> n < two64 ->
  keys_are accounts [r; w; a; utp; wtp; esc; u; esc; ta] -> succeeds e accounts (Wrap n) l l' -> False.
Proof.
  intros H NP C NS T Ew Ea Ee Hu Lt Hk S. pose proof (history_inv _ _ _ H) as I.
  destruct (wrap_consent_l e accounts n l l' r w a utp wtp esc u esc ta Lt Hk S) as (ts & mu' & who & (Os & Ds & _) & (Du & _) & Sg & Who).
  assert (mu' = mu) by (destruct Hu as (_ & D & _); clear -D Du; congruence). subst mu'.
  pose proof (no_pd_anywhere e0 l u utp mu I T NP Hu) as NPm.
  pose proof (esc_settled e0 e l u utp wtp (ex_intro _ past H) T) as Se. rewrite <- Ee in Se. rewrite <- Ew in Se. rewrite <- Ea in Se.
  destruct (settled_tok _ _ _ _ _ Se Ds) as (_ & G). destruct G as (_ & Go & Gd & _).
  destruct Who as [Who|[[Who _]|Who]].
  - assert (P : is_tw_pda who = true) by (rewrite Who, Go, Ea; apply is_tw_pda_authority).
    destruct Sg as [Sg|(m & _ & D & _)].
    + specialize (NS who Sg). clear -NS P. congruence.
    + exact (pda_not_multisig e0 l who m I P D).
  - clear -Who Gd. congruence.
  - clear -Who NPm. congruence.
Qed.

(** Native and other accounts of the same mint *)
Lemma native_same e0 l p k1 k2 t1 t2 : Inv e0 l -> spl_or_t22 p -> a_owner (l k1) = p -> a_owner (l k2) = p ->
  a_data (l k1) = DTok t1 -> a_data (l k2) = DTok t2 -> t_mint t1 = t_mint t2 -> forall n, native_part t1 n = native_part t2 n.
Proof.
  intros I T O1 O2 D1 D2 M n. destruct (inv_natives_fine _ _ _ I T k1 t1 O1 D1) as [A1 B1]. destruct (inv_natives_fine _ _ _ I T k2 t2 O2 D2) as [A2 B2].
  rewrite M in A1, B1. unfold native_part. destruct (t_native t1), (t_native t2); try reflexivity; exfalso.
  - apply B2; [apply A1; discriminate|reflexivity].
  - apply B1; [apply A2; discriminate|reflexivity].
Qed.

Lemma wrap_effect e0 e past l u utp wtp accounts n s r ta mu l' w a esc :
  history e0 past l -> no_permanent_delegate u l -> same_curve e0 e -> no_tw_signer accounts -> spl_or_t22 utp ->
  w = wrapped_mint_of e u wtp -> a = authority_of e w -> esc = escrow_of e u utp wtp ->
  mint_account l u utp mu -> ext_hook mu = None -> n < two64 ->
  keys_are accounts [r; w; a; utp; wtp; s; u; esc; ta] -> succeeds e accounts (Wrap n) l l' ->
  exists te mw ts fee,
    (token_account l esc utp te /\ t_mint te = u /\ mint_account l w wtp mw /\ token_account l s utp ts /\ t_mint ts = u /\ n <= t_amount ts) /\
    fee_for mu (e_epoch e) n fee /\ fee <= n /\
    l' esc = mkAcc (lamports l esc + native_part te n)
               (DTok (mkTok (t_mint te) (t_owner te) (t_amount te + (n - fee)) (t_delegate te) (t_delegated te)
                            (t_state te) (t_native te) (t_close te) (withhold fee (t_exts te)))) utp /\
    l' w = mkAcc (lamports l w)
             (DMint (mkMint (m_auth mw) (m_supply mw + (n - fee)) (m_decimals mw) (m_init mw) (m_freeze mw) (m_exts mw) (m_len mw))) wtp /\
    (s <> esc /\ s <> w /\ r <> esc /\ r <> w /\ u <> esc /\ u <> w /\ u <> s /\ u <> r /\ esc <> w) /\
    forall k, k <> s -> k <> esc -> k <> w -> k <> r -> l' k = l k.
Proof.
  intros H NP C NS T Ew Ea Ee Hu Hook Lt Hk S. pose proof (history_inv _ _ _ H) as I.
  assert (Nse : s <> esc).
  { intro X. rewrite X in Hk. exact (escrow_cannot_pay e0 e past l u utp wtp accounts n l' r w a esc ta mu H NP C NS T Ew Ea Ee Hu Lt Hk S). }
  destruct (wrap_exact_l e accounts n l l' r w a utp wtp s u esc ta Lt Hk S Nse)
    as (mu' & mw & ts & te & fee & ts' & te' & _ & ((Du & _) & Hw & _ & Hs & Ms & He & Me & _) & (_ & Fe & Fl & Lts & _) & _ & (Le & _) & Lw & Hr & (Nrs & Nre & Nrw) & Fr).
  assert (mu' = mu) by (destruct Hu as (_ & D & _); clear -D Du; congruence). subst mu'.
  destruct Hr as (tr & Mr & _ & _ & Hr). destruct (Hr (or_introl Hook)) as [(Or & Dr & _) _].
  pose proof Hw as (Ow & Dw & _). pose proof Hs as (Os & Ds & _). pose proof He as (Oe & De & Se).
  assert (Nes : forall n, native_part ts n = native_part te n).
  { apply (native_same e0 l utp s esc ts te I T Os Oe Ds De). clear -Ms Me. congruence. }
  exists te, mw, ts, fee. split; [exact (conj He (conj Me (conj Hw (conj Hs (conj Ms Lts)))))|]. split; [exact Fe|]. split; [exact Fl|].
  split.
  { destruct (wrap_inv e accounts n l l' r w a utp wtp s u esc ta Lt Hk S)
      as (_ & Tp & _ & _ & _ & _ & et & um & ms & extra & l1 & msm & Ue & _ & Uu & _ & _ & _ & Tr & _ & _ & Mt).
    destruct (transfer_effect _ _ _ _ _ _ _ _ _ _ _ _ _ _ Tp Tr Nse) as
      (s0 & d0 & m0 & fee0 & s1 & dx & Us & Ud & Um & _ & _ & _ & _ & _ & Fe0 & Fl0 & _ & _ & _ & _ & _ & _ & _ & _ & _ & Dx & _ & _ & Ld & _).
    apply unpack_tok_inv in Ud. destruct Ud as (Ud & _). rewrite De in Ud. injection Ud as <-.
    apply unpack_tok_inv in Us. destruct Us as (Us & _). rewrite Ds in Us. injection Us as <-.
    apply unpack_mint_inv in Um. destruct Um as (Um & _). rewrite Du in Um. injection Um as <-.
    assert (fee0 = fee) by (apply (fee_for_fun mu (e_epoch e) n); [apply transfer_fee_of_for; exact Fe0|exact Fe]). subst fee0.
    assert (L : l' esc = l1 esc).
    { destruct (mint_to_inv _ _ _ _ _ _ _ _ _ Mt) as (dd & mm & _ & _ & _ & _ & _ & _ & _ & _ & _ & _ & _ & _ & _ & _ & E).
      rewrite E. rewrite !upd_other; [reflexivity| |]; intro X; [apply Nre; clear -X; congruence|].
      clear -X De Dw. congruence. }
    rewrite L, Ld, Nes. unfold lamports. f_equal. f_equal. unfold set_texts, set_amount. cbn.
    assert (Q : dx = withhold fee (t_exts te)).
    { destruct (fee =? 0) eqn:F; [apply N.eqb_eq in F; rewrite F, withhold_0; exact Dx|exact (withhold_add _ _ _ Dx)]. }
    rewrite Q. reflexivity. }
  split; [exact Lw|]. split.
  { split; [exact Nse|]. split; [intro X; rewrite X in Ds; clear -Ds Dw; congruence|]. split; [exact Nre|]. split; [exact Nrw|].
    split; [intro X; rewrite X in Du; clear -Du De; congruence|].
    split; [rewrite Ew; intro X; exact (wrapped_neq_unwrapped e u wtp (eq_sym X))|].
    split; [intro X; rewrite X in Du; clear -Du Ds; congruence|]. split; [intro X; rewrite X in Du; clear -Du Dr; congruence|].
    intro X; rewrite X in De; clear -De Dw; congruence. }
  intros k K1 K2 K3 K4. apply Fr; try assumption. left. exact Hook.
Qed.

Lemma unwrap_effect e0 e past l u utp wtp accounts n s r ta mu l' w a esc :
  history e0 past l -> same_curve e0 e -> spl_or_t22 utp ->
  w = wrapped_mint_of e u wtp -> a = authority_of e w -> esc = escrow_of e u utp wtp ->
  mint_account l u utp mu -> ext_hook mu = None -> n < two64 -> r <> esc ->
  keys_are accounts [esc; r; a; u; wtp; utp; s; w; ta] -> succeeds e accounts (Unwrap n) l l' ->
  exists te mw ts,
    (token_account l esc utp te /\ t_mint te = u /\ mint_account l w wtp mw /\ token_account l s wtp ts /\ t_mint ts = w /\ n <= t_amount ts) /\
    n <= t_amount te /\ n <= m_supply mw /\ native_part te n <= lamports l esc /\
    l' esc = mkAcc (lamports l esc - native_part te n)
               (DTok (mkTok (t_mint te) (t_owner te) (t_amount te - n) (t_delegate te) (t_delegated te)
                            (t_state te) (t_native te) (t_close te) (t_exts te))) utp /\
    l' w = mkAcc (lamports l w)
             (DMint (mkMint (m_auth mw) (m_supply mw - n) (m_decimals mw) (m_init mw) (m_freeze mw) (m_exts mw) (m_len mw))) wtp /\
    (s <> esc /\ s <> w /\ r <> esc /\ r <> w /\ u <> esc /\ u <> w /\ u <> s /\ u <> r /\ esc <> w) /\
    forall k, k <> s -> k <> esc -> k <> w -> k <> r -> l' k = l k.
Proof.
  intros H C T Ew Ea Ee Hu Hook Lt Nre Hk S. pose proof (history_inv _ _ _ H) as I.
  destruct (unwrap_exact_l e accounts n l l' esc r a u wtp utp s w ta Lt Hk S Nre)
    as (mu' & mw & ts & te & tr & fee & ts' & te' & tr' & _ & ((Du & _) & Hw & Hs & Ms & He & Me & Hr & Mr) & (_ & Fe & Fl & Lts & Lsu & Lte & Nat) & Lw & (Le & Le1 & Le2 & Le3 & Le4) & _ & _ & _ & (Nse & Nsr & Nsw & New & Nrw) & Fr).
  assert (mu' = mu) by (destruct Hu as (_ & D & _); clear -D Du; congruence). subst mu'.
  pose proof Hw as (Ow & Dw & _). pose proof Hs as (Os & Ds & _). pose proof He as (Oe & De & Se). pose proof Hr as (Or & Dr & _).
  pose proof (esc_settled e0 e l u utp wtp (ex_intro _ past H) T) as Set_. rewrite <- Ee in Set_. rewrite <- Ew in Set_. rewrite <- Ea in Set_.
  destruct (settled_tok _ _ _ _ _ Set_ De) as (_ & G). destruct G as (_ & _ & Gd & _).
  exists te, mw, ts. split; [exact (conj He (conj Me (conj Hw (conj Hs (conj Ms Lts)))))|]. split; [exact Lte|]. split; [exact Lsu|]. split; [exact Nat|].
  split.
  { rewrite Le. f_equal. f_equal. destruct Le2 as (A1 & A2 & A3 & A4 & A5 & _). destruct Le4 as [[A6 A7]|[A6 _]]; [|clear -A6 Gd; congruence].
    destruct te'. cbn in *. rewrite A1, A2, A3, A4, A5, A6, A7, Le1, Le3. reflexivity. }
  split; [exact Lw|]. split.
  { split; [exact Nse|]. split; [exact Nsw|]. split; [exact Nre|]. split; [exact Nrw|].
    split; [intro X; rewrite X in Du; clear -Du De; congruence|].
    split; [rewrite Ew; intro X; exact (wrapped_neq_unwrapped e u wtp (eq_sym X))|].
    split; [intro X; rewrite X in Du; clear -Du Ds; congruence|]. split; [intro X; rewrite X in Du; clear -Du Dr; congruence|].
    exact New. }
  intros k K1 K2 K3 K4. apply Fr; try assumption. left. exact Hook.
Qed.

(** ** Room: what reachability guarantees about the current state *)
Lemma spl_t22 u mu l e0 utp : Inv e0 l -> spl_or_t22 utp -> mint_account l u utp mu -> is_native_mint utp u = true -> mu = wrapped_sol_mint.
Proof.
  intros I Tu (Ou & Du & _) N. unfold is_native_mint in N. apply pk_eqb_eq in N. destruct Tu as [E|E]; rewrite E in *; cbn [pk_eqb spl_token_id t22_id N.eqb Pos.eqb] in N.
  - destruct (inv_sol _ _ I) as [_ S]. rewrite N in Du. clear -S Du. congruence.
  - destruct (inv_acct _ _ I u) as (_ & _ & A). specialize (A N Ou). clear -A Du. congruence.
Qed.
(** Room for another Wrap *)
Lemma wrap_room e0 past l u utp wtp n mu te mw ts s w esc :
  history e0 past l -> ever (no_permanent_delegate u) past l -> spl_or_t22 utp -> spl_or_t22 wtp ->
  w = wrapped_mint_of e0 u wtp -> esc = escrow_of e0 u utp wtp ->
  mint_account l u utp mu -> token_account l esc utp te -> t_mint te = u -> mint_account l w wtp mw ->
  token_account l s utp ts -> t_mint ts = u -> n <= t_amount ts -> s <> esc ->
  (is_native_mint utp u = true -> t_amount te + n < two64) ->
  (t_amount te + n < two64 /\ (ext_fee mu = None \/ withheld_of (t_exts te) + n < two64)) /\ m_supply mw + n < two64.
Proof.
  intros H NP Tu Tw Ew Ee Hu (Oe & De & _) Me (Ow & Dw & _) (Os & Ds & _) Ms Le Nse Nat. pose proof (history_inv _ _ _ H) as I.
  destruct (backed_l e0 past l u utp wtp H Tw Tu (proj1 Hu) NP) as [_ Bk]. rewrite <- Ew, <- Ee in Bk.
  unfold supply, balance in Bk. rewrite De, Dw in Bk.
  destruct (is_native_mint utp u) eqn:Nn.
  - specialize (Nat eq_refl). pose proof (spl_t22 u mu l e0 utp I Tu Hu Nn) as E. split; [|lia]. split; [exact Nat|]. left. rewrite E. reflexivity.
  - assert (TB : tok_val te + tok_val ts < two64) by (apply (two_balances e0 l utp u esc s te ts I Tu Nn); auto).
    unfold tok_val in TB. split; [|lia]. split; [lia|]. right. lia.
Qed.
(** Cover for another Unwrap *)
Lemma unwrap_cover e0 past l u utp wtp n te mw ts s w esc :
  history e0 past l -> ever (no_permanent_delegate u) past l -> spl_or_t22 utp -> spl_or_t22 wtp ->
  w = wrapped_mint_of e0 u wtp -> esc = escrow_of e0 u utp wtp ->
  a_owner (l u) = utp -> token_account l esc utp te -> t_mint te = u -> mint_account l w wtp mw ->
  token_account l s wtp ts -> t_mint ts = w -> n <= t_amount ts ->
  (n <= t_amount te /\ (t_native te <> None -> n <= a_lamports (l esc))) /\ n <= m_supply mw.
Proof.
  intros H NP Tu Tw Ew Ee Ou (Oe & De & _) Me (Ow & Dw & _) (Os & Ds & _) Ms Le. pose proof (history_inv _ _ _ H) as I.
  assert (Nw : is_native_mint wtp w = false).
  { unfold is_native_mint. apply pk_eqb_neq. intro X. pose proof (is_tw_pda_wrapped e0 u wtp) as P. rewrite <- Ew, X in P. destruct (pk_eqb wtp spl_token_id); discriminate. }
  assert (Ls : n <= m_supply mw).
  { destruct (N.eq_0_gt_0_cases (t_amount ts)) as [Z|P]; [rewrite Z in Le; lia|].
    destruct (held_mint e0 l wtp s ts I Tw Os Ds P) as [X|(m2 & O2 & Dm2 & L2)]; [rewrite Ms in X; clear -X Nw; congruence|].
    rewrite Ms in Dm2. assert (m2 = mw) by (clear -Dw Dm2; congruence). subst m2. lia. }
  split; [|exact Ls].
  destruct (backed_l e0 past l u utp wtp H Tw Tu Ou NP) as [_ Bk]. rewrite <- Ew, <- Ee in Bk.
  unfold supply, balance in Bk. rewrite De, Dw in Bk. split; [lia|].
  intro Nn. apply (inv_natives_fine _ _ _ I Tu esc te Oe De) in Nn.
  pose proof (sol_amount e0 l utp esc te (ex_intro _ past H) Tu Oe De Nn). lia.
Qed.

(** ** The orders done so far *)
Lemma turnover_in mu os i o f : turnover mu os i o f -> i <= total_wrapped os.
Proof.
  induction 1 as [|x os i o f fee S F T IH|x os i o f S T IH]; cbn; [lia| |]; fold (total_wrapped os); rewrite S; lia.
Qed.
Lemma moved_none utp wtp w esc te mw l l' : token_account l esc utp te -> mint_account l w wtp mw -> l' esc = l esc -> l' w = l w ->
  moved utp wtp w esc te mw 0 0 0 l l'.
Proof.
  intros (Oe & De & _) (Ow & Dw & _) Ee Ew. unfold moved. split; [lia|]. split; [lia|]. split; [unfold native_part; destruct (t_native te); lia|].
  assert (Z : forall n, n + 0 - 0 = n) by (intro; lia).
  rewrite Ee, Ew, withhold_0, !Z. unfold lamports.
  split.
  - assert (P : a_lamports (l esc) + native_part te (0 + 0) - native_part te 0 = a_lamports (l esc)) by (unfold native_part; destruct (t_native te); lia).
    rewrite P. destruct (l esc) as [x d o]. cbn in *. rewrite Oe, De. destruct te. reflexivity.
  - destruct (l w) as [x d o]. cbn in *. rewrite Ow, Dw. destruct mw. reflexivity.
Qed.
Lemma after_shared utp wtp w esc mu os l lm i o f te mw : turnover mu os i o f ->
  (os <> [] -> exists te mw, token_account l esc utp te /\ mint_account l w wtp mw /\ moved utp wtp w esc te mw i o f l lm) ->
  (forall k, k <> esc \/ os = [] -> k <> w \/ os = [] -> (forall o, In o os -> ~ owns o k) -> lm k = l k) ->
  token_account l esc utp te -> mint_account l w wtp mw -> moved utp wtp w esc te mw i o f l lm.
Proof.
  intros T Sh Fr He Hw. destruct os as [|x os].
  - inversion T; subst. apply moved_none; try assumption; apply Fr; auto.
  - destruct (Sh ltac:(discriminate)) as (te' & mw' & (_ & De' & _) & (_ & Dw' & _) & M).
    assert (te' = te) by (destruct He as (_ & D & _); clear -D De'; congruence).
    assert (mw' = mw) by (destruct Hw as (_ & D & _); clear -D Dw'; congruence). subst te' mw'. exact M.
Qed.
Lemma moved_utt utp wtp w esc te mw i o f l lm ks : moved utp wtp w esc te mw i o f l lm ->
  token_account l esc utp te -> mint_account l w wtp mw -> (forall k, In k ks -> k <> esc -> k <> w -> lm k = l k) ->
  up_to_turnover ks esc w l lm.
Proof.
  intros (_ & _ & _ & E & W) (Oe & De & _) (Ow & Dw & _) Fr. split; [exact Fr|]. split.
  - split; [rewrite E, Oe; reflexivity|]. exists te. eexists. split; [exact De|]. split; [rewrite E; reflexivity|].
    apply no_balance_intro; try reflexivity. cbn. apply withhold_clear.
  - split; [rewrite W, Ow; reflexivity|]. exists mw. eexists. split; [exact Dw|]. split; [rewrite W; reflexivity|]. reflexivity.
Qed.
Lemma moved_wrap utp wtp w esc te mw i o f l lm lm' n fee te2 mw2 : moved utp wtp w esc te mw i o f l lm -> fee <= n ->
  a_data (lm esc) = DTok te2 -> a_data (lm w) = DMint mw2 ->
  lm' esc = mkAcc (lamports lm esc + native_part te2 n)
               (DTok (mkTok (t_mint te2) (t_owner te2) (t_amount te2 + (n - fee)) (t_delegate te2) (t_delegated te2)
                            (t_state te2) (t_native te2) (t_close te2) (withhold fee (t_exts te2)))) utp ->
  lm' w = mkAcc (lamports lm w)
             (DMint (mkMint (m_auth mw2) (m_supply mw2 + (n - fee)) (m_decimals mw2) (m_init mw2) (m_freeze mw2) (m_exts mw2) (m_len mw2))) wtp ->
  moved utp wtp w esc te mw (n - fee + i) o (fee + f) l lm'.
Proof.
  intros (M1 & M2 & M3 & M4 & M5) Lf D2 W2 E W. unfold lamports in *. rewrite M4 in D2, E. rewrite M5 in W2, W. cbn in D2, E, W2, W.
  injection D2 as <-. injection W2 as <-. cbn in E, W.
  split; [lia|]. split; [lia|]. split; [unfold lamports, native_part in *; destruct (t_native te); lia|].
  split.
  - rewrite E. rewrite withhold_plus. unfold lamports.
    assert (P : a_lamports (l esc) + native_part te (i + f) - native_part te o +
       native_part {| t_mint := t_mint te; t_owner := t_owner te; t_amount := t_amount te + i - o; t_delegate := t_delegate te;
           t_delegated := t_delegated te; t_state := t_state te; t_native := t_native te; t_close := t_close te; t_exts := withhold f (t_exts te) |} n =
       a_lamports (l esc) + native_part te (n - fee + i + (fee + f)) - native_part te o).
    { unfold native_part in *; cbn; destruct (t_native te); lia. }
    rewrite P. replace (t_amount te + i - o + (n - fee)) with (t_amount te + (n - fee + i) - o) by lia. reflexivity.
  - rewrite W. unfold lamports. replace (m_supply mw + i - o + (n - fee)) with (m_supply mw + (n - fee + i) - o) by lia. reflexivity.
Qed.
Lemma moved_unwrap utp wtp w esc te mw i o f l lm lm' n te2 mw2 : moved utp wtp w esc te mw i o f l lm ->
  a_data (lm esc) = DTok te2 -> a_data (lm w) = DMint mw2 -> n <= t_amount te2 -> n <= m_supply mw2 -> native_part te2 n <= lamports lm esc ->
  lm' esc = mkAcc (lamports lm esc - native_part te2 n)
               (DTok (mkTok (t_mint te2) (t_owner te2) (t_amount te2 - n) (t_delegate te2) (t_delegated te2)
                            (t_state te2) (t_native te2) (t_close te2) (t_exts te2))) utp ->
  lm' w = mkAcc (lamports lm w)
             (DMint (mkMint (m_auth mw2) (m_supply mw2 - n) (m_decimals mw2) (m_init mw2) (m_freeze mw2) (m_exts mw2) (m_len mw2))) wtp ->
  moved utp wtp w esc te mw i (n + o) f l lm'.
Proof.
  intros (M1 & M2 & M3 & M4 & M5) D2 W2 L1 L2 L3 E W. unfold lamports in *. rewrite M4 in D2, E, L3. rewrite M5 in W2, W. cbn in D2, E, W2, W, L3.
  injection D2 as <-. injection W2 as <-. cbn in E, W, L1, L2.
  split; [lia|]. split; [lia|]. split; [unfold lamports, native_part in *; cbn in *; destruct (t_native te); lia|].
  split.
  - rewrite E. unfold lamports.
    assert (P : a_lamports (l esc) + native_part te (i + f) - native_part te o -
       native_part {| t_mint := t_mint te; t_owner := t_owner te; t_amount := t_amount te + i - o; t_delegate := t_delegate te;
           t_delegated := t_delegated te; t_state := t_state te; t_native := t_native te; t_close := t_close te; t_exts := withhold f (t_exts te) |} n =
       a_lamports (l esc) + native_part te (i + f) - native_part te (n + o)).
    { unfold native_part in *; cbn in *; destruct (t_native te); lia. }
    rewrite P. replace (t_amount te + i - o - n) with (t_amount te + i - (n + o)) by lia. reflexivity.
  - rewrite W. unfold lamports. replace (m_supply mw + i - o - n) with (m_supply mw + i - (n + o)) by lia. reflexivity.
Qed.

(** ** One more order *)
Lemma wrap_goes e accounts n l l' : n < two64 ->
  (succeeds e accounts (Wrap n) l l' <-> process_wrap e (mkCtx tw_id accounts) n l = Ok l').
Proof. intro L. unfold succeeds. rewrite outcome_instr by (apply amount_wf; exact L). reflexivity. Qed.
Lemma unwrap_goes e accounts n l l' : n < two64 ->
  (succeeds e accounts (Unwrap n) l l' <-> process_unwrap e (mkCtx tw_id accounts) n l = Ok l').
Proof. intro L. unfold succeeds. rewrite outcome_instr by (apply amount_wf; exact L). reflexivity. Qed.

Lemma order_on_at e0 u utp wtp o w a esc : order_on e0 u utp wtp o ->
  w = wrapped_mint_of e0 u wtp -> a = authority_of e0 w -> esc = escrow_of e0 u utp wtp ->
  (lawful e0 (o_env o) /\ ignores_turnover (o_env o) /\ no_tw_signer (o_accounts o) /\ o_amount o < two64 /\ o_recipient o <> esc /\
   keys_are (o_accounts o)
    (match o_side o with
     | Wraps => [o_recipient o; w; a; utp; wtp; o_source o; u; esc; o_authority o]
     | Unwraps => [esc; o_recipient o; a; u; wtp; utp; o_source o; w; o_authority o]
     end)) /\
  w = wrapped_mint_of (o_env o) u wtp /\ a = authority_of (o_env o) w /\ esc = escrow_of (o_env o) u utp wtp.
Proof.
  intros H Ew Ea Ee. pose proof (proj1 (proj1 H)) as C. split.
  - rewrite Ea, Ee, Ew. exact H.
  - rewrite <- (wrapped_mint_of_curve e0 (o_env o) u wtp C). rewrite <- (authority_of_curve e0 (o_env o) w C).
    rewrite <- (escrow_of_curve e0 (o_env o) u utp wtp C). split; [exact Ew|]. split; [exact Ea|exact Ee].
Qed.

Lemma goes_step e0 o l l' : lawful e0 (o_env o) -> no_tw_signer (o_accounts o) -> goes_through o l l' -> exists act, step e0 act l l'.
Proof.
  intros L NS G. exists (ATokenWrap (o_env o) (o_accounts o) (pack (o_instruction o))). apply st_token_wrap; [exact L|exact NS|exact G].
Qed.

(** Everything about one order, on a state that differs from [l] by others' orders only. *)
Lemma order_step e0 u utp wtp mu w a esc past0 l past done lm o l1 :
  history e0 past0 l -> no_permanent_delegate u l -> history e0 past lm -> ever (no_permanent_delegate u) past lm ->
  spl_or_t22 utp -> spl_or_t22 wtp ->
  w = wrapped_mint_of e0 u wtp -> a = authority_of e0 w -> esc = escrow_of e0 u utp wtp ->
  mint_account l u utp mu -> ext_hook mu = None ->
  after_all utp wtp w esc mu done l lm -> order_on e0 u utp wtp o -> Forall (strangers o) done ->
  (native_mint u -> balance l esc + total_wrapped (o :: done) < two64) ->
  goes_through o l l1 ->
  exists lm', goes_through o lm lm' /\ after_all utp wtp w esc mu (o :: done) l lm' /\
    history e0 (lm :: past) lm' /\ ever (no_permanent_delegate u) (lm :: past) lm'.
Proof.
  intros H0 NP0 H NP Tu Tw Ew Ea Ee Hu Hook (i & ou & f & To & Own & Sh & Fr) On St Cap G.
  destruct (order_on_at e0 u utp wtp o w a esc On Ew Ea Ee) as ((Law & Ig & NS & Lt & Nre & Hk) & Ew' & Ea' & Ee').
  pose proof (proj1 Law) as C.
  assert (Kin : In u (keys (o_accounts o)) /\ In esc (keys (o_accounts o)) /\ In w (keys (o_accounts o)) /\ In (o_source o) (keys (o_accounts o)) /\ In (o_recipient o) (keys (o_accounts o))).
  { destruct Hk as (more & Hk). unfold keys. rewrite Hk. clear. destruct (o_side o); cbn; tauto. }
  destruct Kin as (Ku & Ke & Kw & Ks & Kr).
  assert (Not : forall k x, In x done -> In k (keys (o_accounts o)) -> ~ owns x k).
  { intros k x X K Q. rewrite Forall_forall in St. destruct (St x X k) as [_ S]. exact (S Q K). }
  assert (Same : forall k, In k (keys (o_accounts o)) -> k <> esc -> k <> w -> lm k = l k).
  { intros k K K1 K2. apply Fr; [left; exact K1|left; exact K2|]. intros x X. exact (Not k x X K). }
  (* what remains, once the order has gone through on [lm] with the right effect *)
  assert (Rest : forall lm' i' ou' f' te mw,
    goes_through o lm lm' -> turnover mu (o :: done) i' ou' f' -> token_account l esc utp te -> mint_account l w wtp mw ->
    moved utp wtp w esc te mw i' ou' f' l lm' -> u <> esc -> u <> w -> u <> o_source o -> u <> o_recipient o ->
    lm' (o_source o) = l1 (o_source o) -> lm' (o_recipient o) = l1 (o_recipient o) ->
    (forall k, k <> o_source o -> k <> esc -> k <> w -> k <> o_recipient o -> lm' k = lm k) ->
    exists lm', goes_through o lm lm' /\ after_all utp wtp w esc mu (o :: done) l lm' /\
      history e0 (lm :: past) lm' /\ ever (no_permanent_delegate u) (lm :: past) lm').
  { intros lm' i' ou' f' te mw G' To' He Hw Mv N1 N2 N3 N4 Es Er Fr'. exists lm'. split; [exact G'|]. split; [|split].
    - exists i', ou', f'. split; [exact To'|]. split; [|split].
      + intros x y [X|X] Gx.
        * subst x. assert (y = l1) by (unfold goes_through, succeeds in G, Gx; rewrite G in Gx; injection Gx as <-; reflexivity). subst y. auto.
        * destruct (Own x y X Gx) as [A B].
          assert (P : forall k, owns x k -> lm' k = lm k).
          { intros k Q. apply Fr'; intro Z; rewrite Z in Q; revert Q; apply Not; assumption. }
          rewrite (P (o_source x)) by (left; reflexivity). rewrite (P (o_recipient x)) by (right; reflexivity). auto.
      + intros _. exists te, mw. auto.
      + intros k [K1|K1] [K2|K2] K3; try discriminate K1; try discriminate K2.
        rewrite Fr'; try assumption.
        * apply Fr; [left; exact K1|left; exact K2|]. intros x X. apply K3. right. exact X.
        * intro Z. apply (K3 o); [left; reflexivity|left; exact Z].
        * intro Z. apply (K3 o); [left; reflexivity|right; exact Z].
    - destruct (goes_step e0 o lm lm' Law NS G') as (act & Stp). exact (h_step e0 past lm act lm' H Stp).
    - intros x [X|X]; [|exact (NP x X)]. subst x. intros m (Om & Dm & Im). rewrite (Fr' u N3 N1 N2 N4) in Om, Dm.
      apply (NP lm (or_introl eq_refl) m). split; [exact Om|]. split; [exact Dm|exact Im]. }
  unfold goes_through, o_instruction in G. destruct (o_side o) eqn:Sd.
  - (* Wrap *)
    destruct (wrap_effect e0 (o_env o) past0 l u utp wtp (o_accounts o) (o_amount o) (o_source o) (o_recipient o) (o_authority o) mu l1 w a esc
                H0 NP0 C NS Tu Ew' Ea' Ee' Hu Hook Lt Hk G)
      as (te & mw & ts & fee & (He & Me & Hw & Hs & Ms & Ls) & Fe & Fl & _ & _ & (N1 & N2 & N3 & N4 & N5 & N6 & N7 & N8 & N9) & _).
    pose proof (after_shared utp wtp w esc mu done l lm i ou f te mw To Sh Fr He Hw) as Mv.
    pose proof (moved_utt utp wtp w esc te mw i ou f l lm (keys (o_accounts o)) Mv He Hw Same) as U.
    pose proof Mv as (V1 & V2 & V3 & V4 & V5). pose proof Hu as (Ou & Du & Im).
    assert (Hu' : mint_account lm u utp mu) by (unfold mint_account, mint_data; rewrite (Same u Ku N5 N6); exact Hu).
    assert (Hs' : token_account lm (o_source o) utp ts) by (unfold token_account; rewrite (Same (o_source o) Ks N1 N2); exact Hs).
    set (te2 := mkTok (t_mint te) (t_owner te) (t_amount te + i - ou) (t_delegate te) (t_delegated te)
                          (t_state te) (t_native te) (t_close te) (withhold f (t_exts te))) in *.
    set (mw2 := mkMint (m_auth mw) (m_supply mw + i - ou) (m_decimals mw) (m_init mw) (m_freeze mw) (m_exts mw) (m_len mw)) in *.
    assert (He' : token_account lm esc utp te2).
    { unfold token_account. rewrite V4. split; [reflexivity|]. split; [reflexivity|]. destruct He as (_ & _ & X). exact X. }
    assert (Hw' : mint_account lm w wtp mw2).
    { unfold mint_account, mint_data. rewrite V5. split; [reflexivity|]. split; [reflexivity|]. destruct Hw as (_ & _ & X). exact X. }
    assert (Cap' : is_native_mint utp u = true -> t_amount te2 + o_amount o < two64).
    { intro Nn. specialize (Cap (native_mint_b _ _ Nn)). unfold balance in Cap. destruct He as (_ & De & _). rewrite De in Cap.
      pose proof (turnover_in _ _ _ _ _ To) as Ti. cbn in Cap. fold (total_wrapped done) in Cap. rewrite Sd in Cap. cbn. clear -Cap Ti. lia. }
    destruct (wrap_room e0 past lm u utp wtp (o_amount o) mu te2 mw2 ts (o_source o) w esc H NP Tu Tw Ew Ee Hu' He' Me Hw' Hs' Ms Ls N1 Cap') as (R1 & R2).
    destruct Hk as (more & Hk).
    apply (proj1 (wrap_goes (o_env o) (o_accounts o) (o_amount o) l l1 Lt)) in G.
    destruct (wrap_again (o_env o) (o_accounts o) more (o_amount o) l lm l1 (o_recipient o) w a utp wtp (o_source o) u esc (o_authority o) mu
                Hk U Ig N1 N2 N3 N4 N5 N6 Du Hook) as (lm' & G' & U').
    { intros t Dt. destruct He' as (_ & D & _). rewrite D in Dt. injection Dt as <-. exact R1. }
    { intros x Dx. destruct Hw' as (_ & D & _). rewrite D in Dx. injection Dx as <-. exact R2. }
    { exact G. }
    apply (proj2 (wrap_goes (o_env o) (o_accounts o) (o_amount o) lm lm' Lt)) in G'.
    destruct (wrap_effect e0 (o_env o) past lm u utp wtp (o_accounts o) (o_amount o) (o_source o) (o_recipient o) (o_authority o) mu lm' w a esc
                H (NP lm (or_introl eq_refl)) C NS Tu Ew' Ea' Ee' Hu' Hook Lt (ex_intro _ more Hk) G')
      as (te3 & mw3 & ts3 & fee3 & ((_ & De3 & _) & _ & (_ & Dw3 & _) & _) & Fe3 & _ & Le & Lw & _ & Fr').
    assert (fee3 = fee) by (exact (fee_for_fun _ _ _ _ _ Fe3 Fe)). subst fee3.
    apply (Rest lm' (o_amount o - fee + i) ou (fee + f) te mw); try assumption.
    + unfold goes_through, o_instruction. rewrite Sd. exact G'.
    + apply to_wrap; assumption.
    + exact (moved_wrap utp wtp w esc te mw i ou f l lm lm' (o_amount o) fee te3 mw3 Mv Fl De3 Dw3 Le Lw).
    + apply (utt_at _ _ _ _ _ _ U'); assumption.
    + apply (utt_at _ _ _ _ _ _ U'); assumption.
  - (* Unwrap *)
    destruct (unwrap_effect e0 (o_env o) past0 l u utp wtp (o_accounts o) (o_amount o) (o_source o) (o_recipient o) (o_authority o) mu l1 w a esc
                H0 C Tu Ew' Ea' Ee' Hu Hook Lt Nre Hk G)
      as (te & mw & ts & (He & Me & Hw & Hs & Ms & Ls) & _ & _ & _ & _ & _ & (N1 & N2 & N3 & N4 & N5 & N6 & N7 & N8 & N9) & _).
    pose proof (after_shared utp wtp w esc mu done l lm i ou f te mw To Sh Fr He Hw) as Mv.
    pose proof (moved_utt utp wtp w esc te mw i ou f l lm (keys (o_accounts o)) Mv He Hw Same) as U.
    pose proof Mv as (V1 & V2 & V3 & V4 & V5). pose proof Hu as (Ou & Du & Im).
    assert (Hu' : mint_account lm u utp mu) by (unfold mint_account, mint_data; rewrite (Same u Ku N5 N6); exact Hu).
    assert (Hs' : token_account lm (o_source o) wtp ts) by (unfold token_account; rewrite (Same (o_source o) Ks N1 N2); exact Hs).
    set (te2 := mkTok (t_mint te) (t_owner te) (t_amount te + i - ou) (t_delegate te) (t_delegated te)
                          (t_state te) (t_native te) (t_close te) (withhold f (t_exts te))) in *.
    set (mw2 := mkMint (m_auth mw) (m_supply mw + i - ou) (m_decimals mw) (m_init mw) (m_freeze mw) (m_exts mw) (m_len mw)) in *.
    assert (He' : token_account lm esc utp te2).
    { unfold token_account. rewrite V4. split; [reflexivity|]. split; [reflexivity|]. destruct He as (_ & _ & X). exact X. }
    assert (Hw' : mint_account lm w wtp mw2).
    { unfold mint_account, mint_data. rewrite V5. split; [reflexivity|]. split; [reflexivity|]. destruct Hw as (_ & _ & X). exact X. }
    destruct (unwrap_cover e0 past lm u utp wtp (o_amount o) te2 mw2 ts (o_source o) w esc H NP Tu Tw Ew Ee (proj1 Hu') He' Me Hw' Hs' Ms Ls) as (R1 & R2).
    destruct Hk as (more & Hk).
    apply (proj1 (unwrap_goes (o_env o) (o_accounts o) (o_amount o) l l1 Lt)) in G.
    destruct (unwrap_again (o_env o) (o_accounts o) more (o_amount o) l lm l1 esc (o_recipient o) a u wtp utp (o_source o) w (o_authority o) mu
                Hk U Ig N1 N2 N3 N4 N5 N6 (not_eq_sym N7) Du Hook) as (lm' & G' & U').
    { intros t Dt. destruct He' as (_ & D & _). rewrite D in Dt. injection Dt as <-. exact R1. }
    { intros x Dx. destruct Hw' as (_ & D & _). rewrite D in Dx. injection Dx as <-. exact R2. }
    { exact G. }
    apply (proj2 (unwrap_goes (o_env o) (o_accounts o) (o_amount o) lm lm' Lt)) in G'.
    destruct (unwrap_effect e0 (o_env o) past lm u utp wtp (o_accounts o) (o_amount o) (o_source o) (o_recipient o) (o_authority o) mu lm' w a esc
                H C Tu Ew' Ea' Ee' Hu' Hook Lt Nre (ex_intro _ more Hk) G')
      as (te3 & mw3 & ts3 & ((_ & De3 & _) & _ & (_ & Dw3 & _) & _) & X1 & X2 & X3 & Le & Lw & _ & Fr').
    apply (Rest lm' i (o_amount o + ou) f te mw); try assumption.
    + unfold goes_through, o_instruction. rewrite Sd. exact G'.
    + apply to_unwrap; assumption.
    + exact (moved_unwrap utp wtp w esc te mw i ou f l lm lm' (o_amount o) te3 mw3 Mv De3 Dw3 X1 X2 X3 Le Lw).
    + apply (utt_at _ _ _ _ _ _ U'); assumption.
    + apply (utt_at _ _ _ _ _ _ U'); assumption.
Qed.

(** ** The converse: an order that goes through after the others' goes through on its own *)
Lemma utt_sym ks esc w l1 l2 : up_to_turnover ks esc w l1 l2 -> up_to_turnover ks esc w l2 l1.
Proof.
  intros (A & (B & t1 & t2 & B1 & B2 & B3) & (D & m1 & m2 & D1 & D2 & D3)). split; [intros; symmetry; auto|].
  split; (split; [auto|]); [exists t2, t1 | exists m2, m1]; auto.
Qed.
Lemma shared_back utp wtp w esc mu os l lm i o f te2 mw2 : turnover mu os i o f ->
  (os <> [] -> exists te mw, token_account l esc utp te /\ mint_account l w wtp mw /\ moved utp wtp w esc te mw i o f l lm) ->
  (forall k, k <> esc \/ os = [] -> k <> w \/ os = [] -> (forall o, In o os -> ~ owns o k) -> lm k = l k) ->
  token_account lm esc utp te2 -> mint_account lm w wtp mw2 ->
  exists te mw, token_account l esc utp te /\ mint_account l w wtp mw /\ moved utp wtp w esc te mw i o f l lm.
Proof.
  intros T Sh Fr He Hw. destruct os as [|x os]; [|apply Sh; discriminate].
  assert (E1 : lm esc = l esc) by (apply Fr; auto). assert (E2 : lm w = l w) by (apply Fr; auto).
  exists te2, mw2. unfold token_account in *. rewrite E1 in He. unfold mint_account, mint_data in *. rewrite E2 in Hw.
  split; [exact He|]. split; [exact Hw|]. inversion T; subst. apply moved_none; assumption.
Qed.
Lemma order_back e0 u utp wtp mu w a esc past0 l past done lm o lm' :
  history e0 past0 l -> ever (no_permanent_delegate u) past0 l -> history e0 past lm -> no_permanent_delegate u lm ->
  spl_or_t22 utp -> spl_or_t22 wtp ->
  w = wrapped_mint_of e0 u wtp -> a = authority_of e0 w -> esc = escrow_of e0 u utp wtp ->
  mint_account l u utp mu -> ext_hook mu = None ->
  after_all utp wtp w esc mu done l lm -> order_on e0 u utp wtp o -> Forall (strangers o) done ->
  (native_mint u -> balance l esc + total_wrapped (o :: done) < two64) ->
  goes_through o lm lm' -> exists l1, goes_through o l l1.
Proof.
  intros H0 NP0 H NP Tu Tw Ew Ea Ee Hu Hook (i & ou & f & To & Own & Sh & Fr) On St Cap G.
  destruct (order_on_at e0 u utp wtp o w a esc On Ew Ea Ee) as ((Law & Ig & NS & Lt & Nre & Hk) & Ew' & Ea' & Ee').
  pose proof (proj1 Law) as C.
  assert (Kin : In u (keys (o_accounts o)) /\ In (o_source o) (keys (o_accounts o))).
  { destruct Hk as (more & Hk). unfold keys. rewrite Hk. clear. destruct (o_side o); cbn; tauto. }
  destruct Kin as (Ku & Ks).
  assert (Not : forall k x, In x done -> In k (keys (o_accounts o)) -> ~ owns x k).
  { intros k x X K Q. rewrite Forall_forall in St. destruct (St x X k) as [_ S]. exact (S Q K). }
  assert (Same : forall k, In k (keys (o_accounts o)) -> k <> esc -> k <> w -> lm k = l k).
  { intros k K K1 K2. apply Fr; [left; exact K1|left; exact K2|]. intros x X. exact (Not k x X K). }
  pose proof Hu as (Ou & Du & Im).
  assert (Lu : lm u = l u).
  { destruct done as [|x done']; [apply Fr; auto|]. apply Same; [exact Ku| |].
    - destruct (Sh ltac:(discriminate)) as (te & mw & (_ & De & _) & _). intro X. rewrite X in Du. clear -Du De. congruence.
    - intro X. apply (wrapped_neq_unwrapped e0 u wtp). rewrite <- Ew. symmetry. exact X. }
  assert (Hu' : mint_account lm u utp mu) by (unfold mint_account, mint_data; rewrite Lu; exact Hu).
  assert (Cap0 : forall te, token_account l esc utp te -> o_side o = Wraps -> is_native_mint utp u = true -> t_amount te + o_amount o < two64).
  { intros te (_ & De & _) Sd Nn. specialize (Cap (native_mint_b _ _ Nn)). unfold balance in Cap. rewrite De in Cap.
    cbn in Cap. fold (total_wrapped done) in Cap. rewrite Sd in Cap. clear -Cap. lia. }
  unfold goes_through, o_instruction in *. destruct (o_side o) eqn:Sd.
  - destruct (wrap_effect e0 (o_env o) past lm u utp wtp (o_accounts o) (o_amount o) (o_source o) (o_recipient o) (o_authority o) mu lm' w a esc
                H NP C NS Tu Ew' Ea' Ee' Hu' Hook Lt Hk G)
      as (te2 & mw2 & ts & fee & (He' & Me' & Hw' & Hs' & Ms & Ls) & Fe & Fl & _ & _ & (N1 & N2 & N3 & N4 & N5 & N6 & N7 & N8 & N9) & _).
    destruct (shared_back utp wtp w esc mu done l lm i ou f te2 mw2 To Sh Fr He' Hw') as (te & mw & He & Hw & Mv).
    pose proof (moved_utt utp wtp w esc te mw i ou f l lm (keys (o_accounts o)) Mv He Hw Same) as U.
    assert (Hs : token_account l (o_source o) utp ts) by (unfold token_account; rewrite <- (Same (o_source o) Ks N1 N2); exact Hs').
    assert (Me : t_mint te = u).
    { destruct Mv as (_ & _ & _ & V & _). destruct He' as (_ & D & _). rewrite V in D. cbn in D. injection D as <-. exact Me'. }
    destruct (wrap_room e0 past0 l u utp wtp (o_amount o) mu te mw ts (o_source o) w esc H0 NP0 Tu Tw Ew Ee Hu He Me Hw Hs Ms Ls N1 (Cap0 te He eq_refl)) as (R1 & R2).
    destruct Hk as (more & Hk).
    apply (proj1 (wrap_goes (o_env o) (o_accounts o) (o_amount o) lm lm' Lt)) in G.
    destruct (wrap_again (o_env o) (o_accounts o) more (o_amount o) lm l lm' (o_recipient o) w a utp wtp (o_source o) u esc (o_authority o) mu
                Hk (utt_sym _ _ _ _ _ U) Ig N1 N2 N3 N4 N5 N6 (proj1 (proj2 Hu')) Hook) as (l1 & G' & _).
    { intros t Dt. destruct He as (_ & D & _). rewrite D in Dt. injection Dt as <-. exact R1. }
    { intros x Dx. destruct Hw as (_ & D & _). rewrite D in Dx. injection Dx as <-. exact R2. }
    { exact G. }
    exists l1. exact (proj2 (wrap_goes (o_env o) (o_accounts o) (o_amount o) l l1 Lt) G').
  - destruct (unwrap_effect e0 (o_env o) past lm u utp wtp (o_accounts o) (o_amount o) (o_source o) (o_recipient o) (o_authority o) mu lm' w a esc
                H C Tu Ew' Ea' Ee' Hu' Hook Lt Nre Hk G)
      as (te2 & mw2 & ts & (He' & Me' & Hw' & Hs' & Ms & Ls) & _ & _ & _ & _ & _ & (N1 & N2 & N3 & N4 & N5 & N6 & N7 & N8 & N9) & _).
    destruct (shared_back utp wtp w esc mu done l lm i ou f te2 mw2 To Sh Fr He' Hw') as (te & mw & He & Hw & Mv).
    pose proof (moved_utt utp wtp w esc te mw i ou f l lm (keys (o_accounts o)) Mv He Hw Same) as U.
    assert (Hs : token_account l (o_source o) wtp ts) by (unfold token_account; rewrite <- (Same (o_source o) Ks N1 N2); exact Hs').
    assert (Me : t_mint te = u).
    { destruct Mv as (_ & _ & _ & V & _). destruct He' as (_ & D & _). rewrite V in D. cbn in D. injection D as <-. exact Me'. }
    destruct (unwrap_cover e0 past0 l u utp wtp (o_amount o) te mw ts (o_source o) w esc H0 NP0 Tu Tw Ew Ee Ou He Me Hw Hs Ms Ls) as (R1 & R2).
    destruct Hk as (more & Hk).
    apply (proj1 (unwrap_goes (o_env o) (o_accounts o) (o_amount o) lm lm' Lt)) in G.
    destruct (unwrap_again (o_env o) (o_accounts o) more (o_amount o) lm l lm' esc (o_recipient o) a u wtp utp (o_source o) w (o_authority o) mu
                Hk (utt_sym _ _ _ _ _ U) Ig N1 N2 N3 N4 N5 N6 (not_eq_sym N7) (proj1 (proj2 Hu')) Hook) as (l1 & G' & _).
    { intros t Dt. destruct He as (_ & D & _). rewrite D in Dt. injection Dt as <-. exact R1. }
    { intros x Dx. destruct Hw as (_ & D & _). rewrite D in Dx. injection Dx as <-. exact R2. }
    { exact G. }
    exists l1. exact (proj2 (unwrap_goes (o_env o) (o_accounts o) (o_amount o) l l1 Lt) G').
Qed.

(** ** Any number of orders *)
Lemma strangers_sym x y : strangers x y -> strangers y x.
Proof. intros H k. destruct (H k). auto. Qed.
Lemma pairs_perm {A} (R : A -> A -> Prop) : (forall x y, R x y -> R y x) -> forall l l', Permutation l l' -> ForallOrdPairs R l -> ForallOrdPairs R l'.
Proof.
  intros Sy l l' P. induction P as [|x l l' P IH|x y l|l l' l'' P1 IH1 P2 IH2]; intro H.
  - exact H.
  - inversion H as [|? ? F T]; subst. constructor; [exact (Permutation_Forall P F)|auto].
  - inversion H as [|? ? F T]; subst. inversion T as [|? ? F' T']; subst. inversion F as [|? ? R1 F1]; subst.
    constructor; [constructor; auto|]. constructor; assumption.
  - auto.
Qed.
Lemma turnover_perm mu os os' : Permutation os os' -> forall i o f, turnover mu os i o f -> turnover mu os' i o f.
Proof.
  induction 1 as [|x l l' P IH|x y l|l l' l'' P1 IH1 P2 IH2]; intros i o f H.
  - exact H.
  - inversion H; subst; [apply to_wrap|apply to_unwrap]; auto.
  - inversion H as [|? ? i1 o1 f1 fee1 S1 F1 T1|? ? i1 o1 f1 S1 T1]; subst; inversion T1 as [|? ? i2 o2 f2 fee2 S2 F2 T2|? ? i2 o2 f2 S2 T2]; subst.
    + replace (o_amount y - fee1 + (o_amount x - fee2 + i2)) with (o_amount x - fee2 + (o_amount y - fee1 + i2)) by lia.
      replace (fee1 + (fee2 + f2)) with (fee2 + (fee1 + f2)) by lia. repeat (apply to_wrap; [assumption..|]); assumption.
    + apply to_unwrap; [assumption|]. apply to_wrap; assumption.
    + apply to_wrap; [assumption..|]. apply to_unwrap; assumption.
    + replace (o_amount y + (o_amount x + o2)) with (o_amount x + (o_amount y + o2)) by lia. repeat (apply to_unwrap; [assumption|]); assumption.
  - auto.
Qed.
Lemma turnover_fun mu os i o f : turnover mu os i o f -> forall i' o' f', turnover mu os i' o' f' -> i' = i /\ o' = o /\ f' = f.
Proof.
  induction 1 as [|x os i o f fee S F T IH|x os i o f S T IH]; intros i' o' f' H.
  - inversion H; auto.
  - inversion H as [|? ? i1 o1 f1 fee1 S1 F1 T1|? ? i1 o1 f1 S1 T1]; subst; [|clear -S S1; congruence].
    destruct (IH _ _ _ T1) as (-> & -> & ->). rewrite (fee_for_fun _ _ _ _ _ F1 F). auto.
  - inversion H as [|? ? i1 o1 f1 fee1 S1 F1 T1|? ? i1 o1 f1 S1 T1]; subst; [clear -S S1; congruence|].
    destruct (IH _ _ _ T1) as (-> & -> & ->). auto.
Qed.
Lemma after_all_perm utp wtp w esc mu os os' l l' : Permutation os os' -> after_all utp wtp w esc mu os l l' -> after_all utp wtp w esc mu os' l l'.
Proof.
  intros P (i & o & f & To & Own & Sh & Fr). exists i, o, f. split; [exact (turnover_perm _ _ _ P _ _ _ To)|].
  assert (Nil : os' = [] <-> os = []).
  { split; intro E; subst; [exact (Permutation_nil (Permutation_sym P))|exact (Permutation_nil P)]. }
  split; [|split].
  - intros x l1 X. apply Own. exact (Permutation_in x (Permutation_sym P) X).
  - intro Ne. apply Sh. tauto.
  - intros k K1 K2 K3. apply Fr; [tauto|tauto|]. intros x X. apply K3. exact (Permutation_in x P X).
Qed.
Lemma owns_dec (os : list order) k : (exists o, In o os /\ owns o k) \/ forall o, In o os -> ~ owns o k.
Proof.
  induction os as [|o os [(x & X & Q)|IH]]; [right; intros o []|left; exists x; split; [right; exact X|exact Q]|].
  destruct (pk_eqb k (o_source o)) eqn:E1; [left; exists o; split; [left; reflexivity|left; apply pk_eqb_eq; exact E1]|].
  destruct (pk_eqb k (o_recipient o)) eqn:E2; [left; exists o; split; [left; reflexivity|right; apply pk_eqb_eq; exact E2]|].
  right. intros x [X|X]; [subst x|auto]. apply pk_eqb_neq in E1, E2. intros [Q|Q]; auto.
Qed.
Lemma after_all_fun utp wtp w esc mu os l l1 l2 :
  (forall o, In o os -> exists l1, goes_through o l l1) ->
  after_all utp wtp w esc mu os l l1 -> after_all utp wtp w esc mu os l l2 -> forall k, l1 k = l2 k.
Proof.
  intros Al (i & o & f & To & Own & Sh & Fr) (i' & o' & f' & To' & Own' & Sh' & Fr') k.
  destruct (turnover_fun _ _ _ _ _ To _ _ _ To') as (-> & -> & ->).
  destruct (owns_dec os k) as [(x & X & Q)|Not].
  - destruct (Al x X) as (lx & G). destruct (Own x lx X G) as [A B]. destruct (Own' x lx X G) as [A' B'].
    destruct Q as [-> | ->]; [rewrite A, A'|rewrite B, B']; reflexivity.
  - destruct os as [|x os'].
    + rewrite Fr, Fr' by auto. reflexivity.
    + destruct (Sh ltac:(discriminate)) as (te & mw & (_ & De & _) & (_ & Dw & _) & (_ & _ & _ & M1 & M2)).
      destruct (Sh' ltac:(discriminate)) as (te' & mw' & (_ & De' & _) & (_ & Dw' & _) & (_ & _ & _ & M1' & M2')).
      assert (te' = te) by (clear -De De'; congruence). assert (mw' = mw) by (clear -Dw Dw'; congruence). subst te' mw'.
      destruct (pk_eqb k esc) eqn:K1; [apply pk_eqb_eq in K1; rewrite K1, M1, M1'; reflexivity|].
      destruct (pk_eqb k w) eqn:K2; [apply pk_eqb_eq in K2; rewrite K2, M2, M2'; reflexivity|].
      apply pk_eqb_neq in K1, K2. rewrite Fr, Fr' by auto. reflexivity.
Qed.
Lemma after_none utp wtp w esc mu l : after_all utp wtp w esc mu [] l l.
Proof. exists 0, 0, 0. split; [apply to_none|]. split; [intros o l1 []|]. split; [intro X; destruct (X eq_refl)|reflexivity]. Qed.

Lemma fill e0 u utp wtp mu w a esc past0 l :
  history e0 past0 l -> no_permanent_delegate u l -> spl_or_t22 utp -> spl_or_t22 wtp ->
  w = wrapped_mint_of e0 u wtp -> a = authority_of e0 w -> esc = escrow_of e0 u utp wtp ->
  mint_account l u utp mu -> ext_hook mu = None ->
  forall os done past lm, history e0 past lm -> ever (no_permanent_delegate u) past lm ->
  after_all utp wtp w esc mu done l lm -> Forall (order_on e0 u utp wtp) os -> ForallOrdPairs strangers (os ++ done) ->
  (native_mint u -> balance l esc + total_wrapped (os ++ done) < two64) ->
  (forall o, In o os -> exists l1, goes_through o l l1) ->
  exists past' lm', filled os lm lm' /\ after_all utp wtp w esc mu (os ++ done) l lm' /\ history e0 past' lm' /\ ever (no_permanent_delegate u) past' lm'.
Proof.
  intros H0 NP0 Tu Tw Ew Ea Ee Hu Hook. induction os as [|o os IH]; intros done past lm H NP Af On Str Cap Al.
  - exists past, lm. split; [apply f_none|]. auto.
  - inversion On as [|? ? On1 On2]; subst x l0. cbn [app] in Str. inversion Str as [|? ? St1 St2]; subst a0 l0.
    destruct (Al o (or_introl eq_refl)) as (l1 & G).
    assert (P : Permutation (o :: os ++ done) (os ++ o :: done)) by apply Permutation_middle.
    assert (TW : forall xs ys, total_wrapped (xs ++ ys) = total_wrapped xs + total_wrapped ys).
    { intros xs ys. induction xs as [|x xs IHx]; [reflexivity|]. cbn. fold (total_wrapped (xs ++ ys)) (total_wrapped xs). rewrite IHx. destruct (o_side x); lia. }
    assert (TW1 : forall x xs, total_wrapped (x :: xs) = (match o_side x with Wraps => o_amount x | Unwraps => 0 end) + total_wrapped xs).
    { intros x xs. cbn. fold (total_wrapped xs). destruct (o_side x); lia. }
    destruct (order_step e0 u utp wtp mu w a esc past0 l past done lm o l1) as (lm1 & G1 & Af1 & H1 & NP1); try assumption.
    + apply Forall_app in St1. exact (proj2 St1).
    + intro Nn. specialize (Cap Nn). cbn [app] in Cap. rewrite TW1, TW in Cap. rewrite TW1. clear -Cap. lia.
    + destruct (IH (o :: done) (lm :: past) lm1) as (past' & lm' & F & Af' & H' & NP'); try assumption.
      * exact (pairs_perm strangers strangers_sym _ _ P Str).
      * intro Nn. specialize (Cap Nn). cbn [app] in Cap. rewrite TW1, TW in Cap. rewrite TW, TW1. clear -Cap. lia.
      * intros x X. apply Al. right. exact X.
      * exists past', lm'. split; [exact (f_next _ _ _ _ _ G1 F)|]. split; [|auto].
        exact (after_all_perm _ _ _ _ _ _ _ _ _ (Permutation_sym P) Af').
Qed.
