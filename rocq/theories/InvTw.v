(** * InvTw.v — token-wrap's own instructions preserve the invariant of reachable states. *)
From Verif Require Import Base Codec State Pda TokenProg Cpi Meta Processor Tac PdaProofs TokProofs FrameProofs ProcProofs
  Spec SpecLemmas WrapProofs CreateProofs MapProofs SyncProofs SyncProofs2 CloseProofs InvTok InvCons HistorySpec InvState.

(** ** The invariant only depends on the addresses *)
Lemma pda_ok_curve e e' k a : same_curve e e' -> pda_ok e k a -> pda_ok e' k a.
Proof.
  intros C [B|[(u & p & T & E & W)|[(u & p & T & E & O & D)|(u & v & E & O & D)]]].
  - left; exact B.
  - right; left. exists u, p. split; [exact T|]. split; [rewrite E; apply wrapped_mint_of_curve; exact C|].
    unfold wrapped_acct in *. rewrite <- (authority_of_curve e e' k C). exact W.
  - right; right; left. exists u, p. split; [exact T|]. split; [|auto]. rewrite E, (wrapped_mint_of_curve e e' u p C). apply backpointer_of_curve; exact C.
  - right; right; right. exists u, v. split; [|auto]. rewrite E. apply canonical_pointer_of_curve; exact C.
Qed.
Lemma Inv_curve e e' l : same_curve e e' -> Inv e l -> Inv e' l.
Proof.
  intros C I. constructor.
  - intro k. destruct (inv_acct _ _ I k) as (A & B & D). split; [exact A|]. split; [|exact D]. intro P. apply (pda_ok_curve e e' _ _ C). exact (B P).
  - intros u p T. rewrite <- (wrapped_mint_of_curve e e' u p C), <- (backpointer_of_curve e e' _ C). exact (inv_pair _ _ I u p T).
  - exact (inv_native _ _ I).
  - exact (inv_cons _ _ I).
  - exact (inv_sol _ _ I).
Qed.
Lemma escrowed_curve e e' l u utp wtp : same_curve e e' -> escrowed e l u utp wtp = escrowed e' l u utp wtp.
Proof.
  intro C.
  assert (E1 : escrow_of e u utp wtp = escrow_of e' u utp wtp) by (apply escrow_of_curve; exact C).
  assert (E2 : authority_of e (wrapped_mint_of e u wtp) = authority_of e' (wrapped_mint_of e' u wtp)).
  { rewrite (wrapped_mint_of_curve e e' u wtp C). apply authority_of_curve; exact C. }
  unfold escrowed. cbv zeta. rewrite E1, E2. reflexivity.
Qed.
Lemma lawful_self e0 e : lawful e0 e -> lawful e e.
Proof. intros [_ L]. split; [apply same_curve_refl|exact L]. Qed.

(** ** Building the invariant from a list of changed accounts *)
Lemma acct_ok_same e0 k a a' : same_do a a' -> acct_ok e0 k a -> acct_ok e0 k a'.
Proof.
  intros [D O] (A & B & C). unfold acct_ok. rewrite D, O. split; [exact A|]. split; [|exact C]. intro P. specialize (B P).
  apply (softens_pda e0 k a); [left; split; assumption|exact B].
Qed.
Lemma inv_from e0 l l' :
  Inv e0 l ->
  (forall k, same_do (l k) (l' k) \/ (acct_ok e0 k (l' k) /\ k <> native_mint_id /\ (k = native_mint_2022_id -> a_owner (l' k) = a_owner (l k)) /\
     forall t, a_data (l' k) = DTok t -> a_owner (l' k) = a_owner (l k) /\ exists t0, a_data (l k) = DTok t0 /\ t_mint t0 = t_mint t)) ->
  (forall u p, token_program p -> (blank (l' (wrapped_mint_of e0 u p)) <-> blank (l' (backpointer_of e0 (wrapped_mint_of e0 u p))))) ->
  (forall p v, token_program p -> is_native_mint p v = false -> conserved p v l') -> Inv e0 l'.
Proof.
  intros I H P K. constructor; [|exact P| |exact K|].
  - intro k. destruct (H k) as [S|[A _]]; [|exact A]. exact (acct_ok_same _ _ _ _ S (inv_acct _ _ I k)).
  - assert (NO : a_owner (l' native_mint_2022_id) = a_owner (l native_mint_2022_id)).
    { destruct (H native_mint_2022_id) as [[_ S]|(_ & _ & A & _)]; [exact S|exact (A eq_refl)]. }
    rewrite NO. intros k t O D M. destruct (H k) as [[D1 O1]|(_ & _ & _ & A)].
    + apply (inv_native _ _ I k t); congruence.
    + destruct (A t D) as (O1 & t0 & D0 & M0). apply (inv_native _ _ I k t0); congruence.
  - destruct (H native_mint_id) as [[D O]|(_ & Z & _)]; [|contradiction]. rewrite D, O. exact (inv_sol _ _ I).
Qed.
Lemma derived_not_native e s p : pda e s p <> native_mint_2022_id.
Proof. unfold pda. discriminate. Qed.
Lemma derived_not_sol e s p : pda e s p <> native_mint_id.
Proof. unfold pda. discriminate. Qed.
Lemma tok_not_sol e0 l k t : Inv e0 l -> a_data (l k) = DTok t -> k <> native_mint_id.
Proof. intros I D ->. destruct (inv_sol _ _ I) as [_ D']. congruence. Qed.
Lemma pda_no_tok e0 l k t : Inv e0 l -> a_data (l k) = DTok t -> is_tw_pda k = false.
Proof.
  intros I D. destruct (is_tw_pda k) eqn:P; [|reflexivity]. exfalso.
  destruct (inv_pda _ _ _ I P) as [[B _]|[(u & p & _ & _ & _ & m' & B & _)|[(u & p & _ & _ & _ & B)|(u & v & _ & _ & B)]]]; congruence.
Qed.
Lemma tok_not_native e0 l k t : Inv e0 l -> token_program (a_owner (l k)) -> a_data (l k) = DTok t -> a_owner (l k) = t22_id -> k <> native_mint_2022_id.
Proof.
  intros I T D O ->. destruct (inv_acct _ _ I native_mint_2022_id) as (_ & _ & A). specialize (A eq_refl O). congruence.
Qed.
(** A token account of SPL Token may sit at Token-2022's native mint address only before that exists. *)
Lemma tok_acct_ok e0 l k t t' a' :
  Inv e0 l -> token_program (a_owner (l k)) -> a_data (l k) = DTok t ->
  a_owner a' = a_owner (l k) -> a_data a' = DTok t' ->
  t_mint t' = t_mint t -> t_owner t' = t_owner t -> t_native t' = t_native t -> t_close t' = t_close t -> delegate_kept t t' ->
  map acct_ext_type_of (t_exts t') = map acct_ext_type_of (t_exts t) -> acct_ok e0 k a'.
Proof.
  intros I T D O' D' M W N Cl Dg X. pose proof (inv_tok _ _ _ _ I T D) as (A1 & A2 & A3 & A4). split; [|split].
  - intros _. rewrite O', D'. cbn. unfold tok_ok, distinct_acct_exts in *. rewrite M, W, N, Cl, X. split; [exact A1|]. split.
    + intro E. specialize (A2 E). rewrite A2 in X. now apply map_eq_nil in X.
    + split; [exact A3|]. intro P. destruct (A4 P) as [B1 B2]. split; [destruct Dg; congruence|exact B2].
  - rewrite (pda_no_tok _ _ _ _ I D). discriminate.
  - intros -> Q. exfalso. apply (tok_not_native _ _ _ _ I T D); congruence.
Qed.

(** ** Conservation helpers *)
Lemma conserved_val e0 l l' :
  Inv e0 l ->
  (forall k, same_do (l k) (l' k) \/
     ((forall p v, token_program p -> is_native_mint p v = false -> val p v l' k <= val p v l k) /\
      (forall p v, token_program p -> is_native_mint p v = false -> room p v l k <= room p v l' k))) ->
  forall p v, token_program p -> is_native_mint p v = false -> conserved p v l'.
Proof.
  intros I H p v T N. apply (conserved_le p v l); [| |exact (inv_cons _ _ I p v T N)].
  - intro k. destruct (H k) as [[D O]|[A _]]; [|exact (A p v T N)]. unfold val. rewrite D, O. lia.
  - destruct (H v) as [[D O]|[_ A]]; [|exact (A p v T N)]. unfold room. rewrite D, O. lia.
Qed.
Lemma val_of_other p v l k : (forall m, a_data (l k) <> DMint m) -> (forall t, a_data (l k) <> DTok t) -> val p v l k = 0 /\ room p v l k = 0.
Proof.
  intros A B. unfold val, room. destruct (pk_eqb (a_owner (l k)) p); [|auto]. destruct (a_data (l k)); auto; [destruct (A m); reflexivity|destruct (B t); reflexivity].
Qed.

(** ** What a step may do to a pair (unwrapped mint [u], wrapped side [wtp]). *)
Definition pair_mint (e : env) (u wtp : pubkey) : pubkey := wrapped_mint_of e u wtp.
Definition quiet (e : env) (u wtp : pubkey) (l l' : ledger) : Prop :=
  supply l' (wrapped_mint_of e u wtp) <= supply l (wrapped_mint_of e u wtp) /\
  forall utp, token_program utp -> escrowed e l u utp wtp <= escrowed e l' u utp wtp.
Definition wraps (e : env) (u wtp utp : pubkey) (n : N) (l l' : ledger) : Prop :=
  token_program utp /\ supply l' (wrapped_mint_of e u wtp) <= supply l (wrapped_mint_of e u wtp) + n /\
    escrowed e l u utp wtp + n <= escrowed e l' u utp wtp /\
    forall utp', token_program utp' -> escrowed e l u utp' wtp <= escrowed e l' u utp' wtp.
Definition unwraps (e : env) (u wtp utp : pubkey) (n : N) (l l' : ledger) : Prop :=
  token_program utp /\ supply l (wrapped_mint_of e u wtp) = supply l' (wrapped_mint_of e u wtp) + n /\
  escrowed e l u utp wtp = escrowed e l' u utp wtp + n /\
  forall utp', token_program utp' -> utp' <> utp -> escrowed e l u utp' wtp <= escrowed e l' u utp' wtp.
(** Accounts of token-wrap: nothing disappears, wrapped mints keep their decimals. *)
Definition lasting (l l' : ledger) : Prop :=
  forall k, is_tw_pda k = true ->
    (blank (l' k) -> blank (l k)) /\
    (forall m, a_data (l k) = DMint m -> exists m', a_data (l' k) = DMint m' /\ m_decimals m' = m_decimals m).
Definition pointers_kept (e : env) (l l' : ledger) : Prop :=
  forall u, same_do (l (canonical_pointer_of e u)) (l' (canonical_pointer_of e u)).

Lemma lasting_trans l l1 l2 : lasting l l1 -> lasting l1 l2 -> lasting l l2.
Proof.
  intros A B k P. destruct (A k P) as [A1 A2]. destruct (B k P) as [B1 B2]. split; [auto|].
  intros m D. destruct (A2 m D) as (m1 & D1 & E1). destruct (B2 m1 D1) as (m2 & D2 & E2). exists m2. split; congruence.
Qed.
Lemma pointers_trans e l l1 l2 : pointers_kept e l l1 -> pointers_kept e l1 l2 -> pointers_kept e l l2.
Proof. intros A B u. destruct (A u) as [A1 A2]. destruct (B u) as [B1 B2]. split; congruence. Qed.
Lemma quiet_trans e u wtp l l1 l2 : quiet e u wtp l l1 -> quiet e u wtp l1 l2 -> quiet e u wtp l l2.
Proof. intros [A1 A2] [B1 B2]. split; [lia|]. intros utp T. specialize (A2 utp T). specialize (B2 utp T). lia. Qed.
Lemma soft_lasting (l l' : ledger) : (forall k, is_tw_pda k = true -> softens (l k) (l' k)) -> lasting l l'.
Proof.
  intros S k P. specialize (S k P). split; [apply (softens_blank _ _ S)|].
  intros m D. destruct S as [[D1 _]|(_ & _ & n & n' & D1 & D2 & S)]; [exists m; split; congruence|].
  exists n'. split; [exact D2|]. rewrite D in D1. inversion D1; subst n. destruct S as (_ & S & _). exact S.
Qed.
Lemma soft_pointers e l l' : Inv e l -> (forall k, is_tw_pda k = true -> softens (l k) (l' k)) -> pointers_kept e l l'.
Proof.
  intros I S u. destruct (S _ (is_tw_pda_canonical e u)) as [X|(_ & _ & n & n' & D1 & _)]; [exact X|exfalso].
  destruct (inv_pda _ _ _ I (is_tw_pda_canonical e u)) as [[B _]|[(u' & p & _ & E & _)|[(u' & p & _ & _ & _ & B)|(u' & v & _ & _ & B)]]]; try congruence.
  symmetry in E. revert E. apply wrapped_neq_canonical.
Qed.
Lemma soft_supply (l l' : ledger) k : softens (l k) (l' k) -> supply l' k <= supply l k.
Proof.
  unfold supply. intros [[D _]|(_ & _ & n & n' & D1 & D2 & S)]; [rewrite D; lia|]. rewrite D1, D2. destruct S as (_ & _ & _ & _ & _ & S). exact S.
Qed.
Lemma good_quiet e u wtp l l' : good_step e l l' -> quiet e u wtp l l'.
Proof. intros (_ & S & E). split; [apply soft_supply, S, is_tw_pda_wrapped|]. intros utp T. exact (E u utp wtp T). Qed.

(** ** MintTo, with the wrapped mint authority's signature *)
Lemma pair_same e l l' :
  Inv e l -> (forall k, is_tw_pda k = true -> blank (l k) <-> blank (l' k)) ->
  forall u p, token_program p -> (blank (l' (wrapped_mint_of e u p)) <-> blank (l' (backpointer_of e (wrapped_mint_of e u p)))).
Proof.
  intros I H u p T. rewrite <- (H _ (is_tw_pda_wrapped e u p)), <- (H _ (is_tw_pda_backpointer e (wrapped_mint_of e u p))). exact (inv_pair _ _ I u p T).
Qed.
(** Two token accounts or a mint and a token account are rewritten; everything else stays. *)
Lemma escrow_credit e l l' k t t' :
  (forall k', k' <> k -> (exists m m', a_data (l k') = DMint m /\ a_data (l' k') = DMint m') \/ same_do (l k') (l' k')) ->
  a_data (l k) = DTok t -> a_data (l' k) = DTok t' -> a_owner (l' k) = a_owner (l k) ->
  t_mint t' = t_mint t -> t_owner t' = t_owner t -> t_amount t <= t_amount t' ->
  forall u utp wtp, escrowed e l u utp wtp <= escrowed e l' u utp wtp.
Proof.
  intros H D D' O M W A u utp wtp. destruct (pk_dec (escrow_of e u utp wtp) k) as [E|E].
  - unfold escrowed. cbv zeta. rewrite E, D, D', O, M, W.
    destruct (pk_eqb (a_owner (l k)) utp && pk_eqb (t_mint t) u && pk_eqb (t_owner t) (authority_of e (wrapped_mint_of e u wtp))); lia.
  - destruct (H _ E) as [(m & m' & D1 & D2)|S]; [|rewrite (escrowed_same _ _ _ _ _ _ S); lia].
    unfold escrowed. cbv zeta. rewrite D1, D2. lia.
Qed.
Lemma mint_to_good e p ms u r a n l l' :
  Inv e l -> token_program p -> tok_mint_to p ms (wrapped_mint_of e u p) r a [] n l = Ok l' ->
  Inv e l' /\ lasting l l' /\ pointers_kept e l l' /\
  supply l' (wrapped_mint_of e u p) = supply l (wrapped_mint_of e u p) + n /\
  (forall k, k <> wrapped_mint_of e u p -> is_tw_pda k = true -> l' k = l k) /\
  (forall u' utp wtp, escrowed e l u' utp wtp <= escrowed e l' u' utp wtp).
Proof.
  intros I T H. pose proof (conserves_mint_to _ _ _ _ _ _ _ _ _ H) as K. apply mint_to_inv in H.
  destruct H as (d & m & Ud & Fd & Nd & Md & Um & Am & _ & B1 & B2 & Or & Ow & Hne & _ & _ & Hl).
  apply unpack_tok_inv in Ud. destruct Ud as (Dd & _). apply unpack_mint_inv in Um. destruct Um as (Dm & Im & _).
  set (w := wrapped_mint_of e u p) in *. assert (Pw : is_tw_pda w = true) by apply is_tw_pda_wrapped.
  assert (Tr : token_program (a_owner (l r))) by (rewrite Or; exact T).
  assert (Tw : token_program (a_owner (l w))) by (rewrite Ow; exact T).
  assert (Lw : l' w = with_data (DMint (set_supply (m_supply m + n) m)) (l w)) by (rewrite Hl; apply upd_same).
  assert (Lr : l' r = with_data (DTok (set_amount (t_amount d + n) d)) (l r)).
  { rewrite Hl, upd_other by exact Hne. apply upd_same. }
  assert (Lo : forall k, k <> w -> k <> r -> l' k = l k).
  { intros k N1 N2. rewrite Hl, !upd_other by congruence. reflexivity. }
  pose proof (inv_mint _ _ _ _ I Tw Dm) as (M1 & M2 & M3 & M4 & M5 & M6).
  destruct (inv_pda _ _ _ I Pw) as [[Bk _]|[(u' & q & Tq & Ek & Oq & m' & Dq & Iq & Aq & Xq)|[(u' & q & _ & Ek & _)|(u' & v & Ek & _)]]]; [congruence| | |].
  2: { exfalso. revert Ek. apply wrapped_neq_backpointer. }
  2: { exfalso. revert Ek. apply wrapped_neq_canonical. }
  assert (m' = m) by congruence. subst m'.
  assert (Pr : is_tw_pda r = false) by exact (pda_no_tok _ _ _ _ I Dd).
  assert (BL : forall k, is_tw_pda k = true -> blank (l k) <-> blank (l' k)).
  { intros k P. destruct (pk_dec k w) as [->|N1].
    - rewrite Lw. unfold blank, with_data; cbn. rewrite Dm. split; intros [? _]; discriminate.
    - rewrite Lo by congruence. split; intro X; exact X. }
  split; [|split; [|split; [|split; [|split]]]].
  - apply (inv_from e l).
    + exact I.
    + intro k. destruct (pk_dec k w) as [->|N1]; [right|destruct (pk_dec k r) as [->|N2]; [right|left; rewrite Lo by assumption; split; reflexivity]].
      * rewrite Lw. split; [|split; [apply derived_not_sol|split]].
        -- split; [|split].
           ++ intros _. cbn. unfold mint_ok; cbn. rewrite Im. repeat split; auto; try congruence.
           ++ intros _. right; left. exists u', q. split; [exact Tq|]. split; [exact Ek|]. split; [exact Oq|].
              eexists. split; [reflexivity|]. cbn. auto.
           ++ intro Q. exfalso. revert Q. apply derived_not_native.
        -- reflexivity.
        -- cbn. discriminate.
      * rewrite Lr. split; [|split; [exact (tok_not_sol _ _ _ _ I Dd)|split]].
        -- apply (tok_acct_ok e l r d (set_amount (t_amount d + n) d) _ I Tr Dd); try reflexivity. left; reflexivity.
        -- reflexivity.
        -- cbn. intros t Ht. split; [reflexivity|]. exists d. split; [exact Dd|]. inversion Ht; subst. reflexivity.
    + exact (pair_same e l l' I BL).
    + intros q' v Tq' Nq'. apply K; auto; [exact (inv_mints_fine _ _ _ I T)|exact (inv_natives_fine _ _ _ I T)|exact (inv_cons _ _ I q' v Tq' Nq')].
  - intros k P. split; [apply BL; exact P|]. intros mk Dk. destruct (pk_dec k w) as [->|N1].
    + rewrite Lw. eexists. split; [reflexivity|]. cbn. congruence.
    + rewrite Lo by congruence. exists mk. auto.
  - intros u2. pose proof (is_tw_pda_canonical e u2) as P. rewrite Lo; [split; reflexivity| |congruence].
    intro Q. symmetry in Q. revert Q. apply wrapped_neq_canonical.
  - unfold supply. rewrite Lw, Dm. reflexivity.
  - intros k N1 P. apply Lo; congruence.
  - apply (escrow_credit e l l' r d (set_amount (t_amount d + n) d)); auto; try (rewrite Lr; reflexivity).
    + intros k' N2. destruct (pk_dec k' w) as [->|N1]; [left|right; rewrite Lo by assumption; split; reflexivity].
      exists m. eexists. split; [exact Dm|]. rewrite Lw. reflexivity.
    + cbn. lia.
Qed.

(** ** A transfer, whoever authorised it *)
Lemma transfer_any_good e p cpi ms src mnt dst auth signers amount dec expf l l' :
  Inv e l -> lawful e e -> token_program p ->
  tok_transfer_checked e p cpi ms src mnt dst auth signers amount dec expf l = Ok l' ->
  Inv e l' /\ (forall k, is_tw_pda k = true -> softens (l k) (l' k)) /\
  (forall u utp wtp, token_program utp -> escrow_of e u utp wtp <> src -> escrowed e l u utp wtp <= escrowed e l' u utp wtp) /\
  (forall u utp wtp, token_program utp -> escrow_of e u utp wtp = src ->
     escrowed e l u utp wtp <= escrowed e l' u utp wtp \/ escrowed e l u utp wtp = escrowed e l' u utp wtp + amount).
Proof.
  intros I L T H. pose proof (fun Hne => transfer_effect _ _ _ _ _ _ _ _ _ _ _ _ _ _ T H Hne) as EFF.
  apply transfer_checked_inv in H.
  destruct H as (s & m & fee & s1 & Us & Fs & As & Ms & Um & _ & _ & _ & _ & Au & Os & Od & [[-> ->]|(Hne & d & dx & l3 & Ud & Fd & Md & _ & Hf & Hb & Hx & W1 & W2 & Mv & Hk)]).
  { split; [exact I|]. split; [intros; apply softens_refl|]. split; [intros; lia|]. intros; left; lia. }
  specialize (EFF Hne).
  apply unpack_tok_inv in Us. destruct Us as (Ds & _). apply unpack_tok_inv in Ud. destruct Ud as (Dd & _).
  pose proof (authorize_debit_fields _ _ _ _ _ _ _ _ _ _ _ Au) as (G1 & G2 & G3 & G4 & G5 & G6 & G7).
  assert (DK : delegate_kept s s1).
  { apply authorize_debit_inv in Au. destruct Au as [_ [[_ ->]|[[_ [_ ->]]|[_ [-> _]]]]]; try (left; reflexivity).
    destruct (pk_eqb src dst); [left; reflexivity|]. unfold delegate_kept. cbn [t_delegate set_delegate]. destruct (t_delegated s - amount =? 0); [right|left]; reflexivity. }
  assert (S3 : forall k, same_do (transfer_ledger l src dst s1 d dx amount fee k) (l3 k)) by exact (move_native_same _ _ _ _ _ _ _ _ Mv).
  pose proof (conserves_transfer_ledger p ms l src dst s s1 d dx amount fee l3 Hne Ds Dd (eq_trans Md (eq_sym Ms)) G1 G3 G7 As Hf Hx W1 W2 Os Od S3) as K.
  assert (L3s : a_data (l3 src) = DTok (set_amount (t_amount s1 - amount) s1) /\ a_owner (l3 src) = p).
  { destruct (S3 src) as [-> ->]. unfold transfer_ledger. cbv zeta. rewrite upd_other by congruence. rewrite upd_same. cbn. auto. }
  assert (L3d : a_data (l3 dst) = DTok (set_texts dx (set_amount (t_amount d + (amount - fee)) d)) /\ a_owner (l3 dst) = p).
  { destruct (S3 dst) as [-> ->]. unfold transfer_ledger. cbv zeta. rewrite upd_same. rewrite (upd_other l src _ dst) by exact Hne. cbn. auto. }
  assert (L3o : forall k, k <> src -> k <> dst -> same_do (l k) (l3 k)).
  { intros k N1 N2. destruct (S3 k) as [A B]. unfold transfer_ledger in A, B. cbv zeta in A, B. rewrite !upd_other in A, B by congruence. split; congruence. }
  destruct L3s as [L3s L3so]. destruct L3d as [L3d L3do].
  assert (Ts : token_program (a_owner (l src))) by (rewrite Os; exact T).
  assert (Td : token_program (a_owner (l dst))) by (rewrite Od; exact T).
  assert (Ps : is_tw_pda src = false) by exact (pda_no_tok _ _ _ _ I Ds).
  assert (Pd : is_tw_pda dst = false) by exact (pda_no_tok _ _ _ _ I Dd).
  assert (SD : forall k, is_tw_pda k = true -> same_do (l k) (l3 k)) by (intros k P; apply L3o; congruence).
  assert (I3 : Inv e l3).
  { apply (inv_from e l).
    - exact I.
    - intro k. destruct (pk_dec k src) as [->|N1]; [right|destruct (pk_dec k dst) as [->|N2]; [right|left; apply L3o; assumption]].
      + split; [|split; [exact (tok_not_sol _ _ _ _ I Ds)|split]].
        * apply (tok_acct_ok e l src s (set_amount (t_amount s1 - amount) s1) _ I Ts Ds); try (cbn; congruence).
          exact DK.
        * congruence.
        * intros t Ht. split; [congruence|]. exists s. split; [exact Ds|]. rewrite L3s in Ht. inversion Ht; subst t. cbn. congruence.
      + split; [|split; [exact (tok_not_sol _ _ _ _ I Dd)|split]].
        * apply (tok_acct_ok e l dst d (set_texts dx (set_amount (t_amount d + (amount - fee)) d)) _ I Td Dd); try (cbn; congruence); [left; reflexivity|].
          cbn. destruct (fee =? 0); [congruence|]. eapply add_withheld_types; exact Hx.
        * congruence.
        * intros t Ht. split; [congruence|]. exists d. split; [exact Dd|]. rewrite L3d in Ht. inversion Ht; subst t. reflexivity.
    - apply (pair_same e l l3 I). intros k P. destruct (SD k P) as [A B]. unfold blank. rewrite A, B. split; intro X; exact X.
    - intros q v Tq Nq. apply K; auto; [exact (inv_mints_fine _ _ _ I T)|exact (inv_natives_fine _ _ _ I T)|exact (inv_cons _ _ I q v Tq Nq)]. }
  pose proof (hook_good _ _ _ _ _ _ _ L I3 Hk) as (I' & S & E).
  split; [exact I'|]. split; [|split].
  - intros k P. eapply softens_trans; [left; exact (SD k P)|exact (S k P)].
  - intros u utp wtp Tu N1. specialize (E u utp wtp Tu).
    assert (escrowed e l u utp wtp <= escrowed e l3 u utp wtp); [|lia].
    destruct (pk_dec (escrow_of e u utp wtp) dst) as [Q|N2].
    + unfold escrowed. cbv zeta. rewrite Q, Dd, L3d, L3do, Od. cbn.
      destruct (pk_eqb p utp && pk_eqb (t_mint d) u && pk_eqb (t_owner d) (authority_of e (wrapped_mint_of e u wtp))); lia.
    + rewrite (escrowed_same _ _ _ _ _ _ (L3o _ N1 N2)). lia.
  - intros u utp wtp Tu Q.
    destruct EFF as (s' & d' & m' & fee' & s1' & dx' & Us' & _ & _ & _ & _ & _ & _ & _ & _ & _ & _ & _ & _ & _ & Au' & _ & _ & _ & _ & _ & _ & Ls & _).
    apply unpack_tok_inv in Us'. destruct Us' as (Ds' & _). assert (s' = s) by congruence. subst s'.
    pose proof (authorize_debit_fields _ _ _ _ _ _ _ _ _ _ _ Au') as (G1' & G2' & _).
    unfold escrowed. cbv zeta. rewrite Q, Ds, Ls, Os. cbn. rewrite G1', G2'.
    destruct (pk_eqb p utp && pk_eqb (t_mint s) u && pk_eqb (t_owner s) (authority_of e (wrapped_mint_of e u wtp))); [right; lia|left; lia].
Qed.

(** ** Unsigned calls made by token-wrap *)
Lemma plain_unsigned c ms : no_tw_signer (c_infos c) -> cpi_plain c ms -> no_tw_signer ms.
Proof. intros N [S _] k Hk. apply signed_is_sig in Hk. apply S in Hk. apply signed_is_sig in Hk. exact (N k Hk). Qed.
Lemma transfer_unsigned e p cpi ms src mnt dst auth signers amount dec expf l l' :
  Inv e l -> lawful e e -> token_program p -> no_tw_signer ms ->
  tok_transfer_checked e p cpi ms src mnt dst auth signers amount dec expf l = Ok l' ->
  forall u utp wtp, token_program utp -> (p = t22_id -> utp = t22_id -> no_permanent_delegate u l) -> escrowed e l u utp wtp <= escrowed e l' u utp wtp.
Proof.
  intros I L T N H u utp wtp Tu NP. apply conserves_transfer_checked in H. destruct H as (m & l3 & _ & C & K & H).
  pose proof (changes_inv _ _ _ _ _ I T N C K) as I3.
  pose proof (changes_escrow e p ms l l3 u utp wtp I T N C NP) as E1.
  destruct H as [->|H]; [exact E1|]. destruct (hook_good _ _ _ _ _ _ _ L I3 H) as (_ & _ & E2). specialize (E2 u utp wtp Tu). lia.
Qed.

Definition pair_case (e : env) (l l' : ledger) (P : pubkey -> pubkey -> Prop) : Prop :=
  forall u wtp, token_program wtp -> no_permanent_delegate u l -> quiet e u wtp l l' \/ P u wtp.

Lemma wrap_step e c amount l l' :
  Inv e l -> lawful e e -> no_tw_signer (c_infos c) -> c_prog c = tw_id -> process_wrap e c amount l = Ok l' ->
  Inv e l' /\ lasting l l' /\ pointers_kept e l l' /\ pair_case e l l' (fun u wtp => exists utp n r s ta more,
    map i_key (c_infos c) = [r; wrapped_mint_of e u wtp; authority_of e (wrapped_mint_of e u wtp); utp; wtp; s; u; escrow_of e u utp wtp; ta] ++ more /\
    n <= amount /\ wraps e u wtp utp n l l').
Proof.
  intros I L NS Hc H. destruct (map i_key (c_infos c)) as [|r [|w [|a [|up [|wp [|s [|u [|esc [|ta rest]]]]]]]]] eqn:Ek;
    try (unfold process_wrap in H; inv_ok; destruct (c_infos c) as [|? [|? [|? [|? [|? [|? [|? [|? [|? ?]]]]]]]]]; discriminate).
  destruct (process_wrap_inv _ _ _ _ _ _ _ _ _ _ _ _ _ _ _ Ek Hc H)
    as (Hn0 & Tu & Tw & Hw & Ha & He & et & um & ms & extra & l1 & msm & Uet & Wet & Uum & Hfee & Hms & Cp & Ht & _ & _ & Hm).
  subst w a esc. clear Hms. pose proof (plain_unsigned _ _ NS Cp) as NM.
  destruct (transfer_any_good _ _ _ _ _ _ _ _ _ _ _ _ _ _ I L Tu Ht) as (I1 & S1 & _ & _).
  pose proof (transfer_unsigned _ _ _ _ _ _ _ _ _ _ _ _ _ _ I L Tu NM Ht) as E1.
  destruct (mint_to_good _ _ _ _ _ _ _ _ _ I1 Tw Hm) as (I2 & La2 & Pk2 & Su2 & Ot2 & E2).
  split; [exact I2|]. split; [exact (lasting_trans _ _ _ (soft_lasting _ _ S1) La2)|].
  split; [exact (pointers_trans _ _ _ _ (soft_pointers _ _ _ I S1) Pk2)|].
  intros u' wtp' Tw' NP.
  assert (MON : forall utp, token_program utp -> escrowed e l u' utp wtp' <= escrowed e l' u' utp wtp').
  { intros utp Tt. specialize (E1 u' utp wtp' Tt (fun _ _ => NP)). specialize (E2 u' utp wtp'). lia. }
  destruct (pk_dec u' u) as [Eu|Nu]; [destruct (pk_dec wtp' wp) as [Ew|Nw]|].
  2,3: left; split; [|exact MON];  assert (Nk : wrapped_mint_of e u' wtp' <> wrapped_mint_of e u wp) by (intro Q; apply wrapped_mint_of_inj in Q; destruct Q; congruence);
       pose proof (soft_supply _ _ _ (S1 _ (is_tw_pda_wrapped e u' wtp'))) as Q1;
       pose proof (Ot2 _ Nk (is_tw_pda_wrapped e u' wtp')) as Q2; unfold supply in *; rewrite Q2; exact Q1.
  subst u' wtp'. right. exists up, (amount - wrap_fee e um amount), r, s, ta, rest. split; [reflexivity|]. split; [lia|]. split; [exact Tu|].
  pose proof (soft_supply _ _ _ (S1 _ (is_tw_pda_wrapped e u wp))) as Q1.
  split; [lia|]. split; [|exact MON].
  unfold pod_unpack_tok in Uet. destruct (a_data (l (escrow_of e u up wp))) as [|  | |t| |] eqn:De; try discriminate; [destruct (_ && _); discriminate|].
  destruct (acct_state_eqb (t_state t) Uninitialized); [discriminate|]. inversion Uet; subst t. clear Uet.
  destruct (pk_dec s (escrow_of e u up wp)) as [Es|Ns].
  - exfalso. apply transfer_checked_inv in Ht.
    destruct Ht as (s' & m & fee & s1 & Us & Fs & As & Ms & Um & _ & _ & _ & _ & Au & Os & _).
    rewrite Es in *. apply unpack_tok_inv in Us. destruct Us as (Ds & _). assert (s' = et) by congruence. subst s'.
    apply authorize_debit_inv in Au. destruct Au as (Sg & Au).
    assert (Pa : is_tw_pda (t_owner et) = true) by (rewrite Wet; apply is_tw_pda_authority).
    assert (T' : token_program (a_owner (l (escrow_of e u up wp)))) by (rewrite Os; exact Tu).
    pose proof (inv_tok _ _ _ _ I T' De) as (_ & _ & _ & TD). destruct (TD Pa) as [TD1 _].
    apply unpack_mint_inv in Um. destruct Um as (Dm & Im & Xm).
    destruct Au as [[PD _]|[[DG _]|[OW _]]].
    + destruct Tu as [->| ->].
      * unfold ext_permanent_delegate in PD. rewrite (Xm eq_refl) in PD. discriminate.
      * assert (ext_permanent_delegate m = None); [|congruence].
        apply (held_no_pd e l (escrow_of e u t22_id wp) et m I Os De); [lia|rewrite Ms; exact NP|rewrite Ms; exact Dm].
    + congruence.
    + apply (unsigned_pda e l up ms _ I NM Pa). rewrite <- OW. exact Sg.
  - destruct (transfer_effect _ _ _ _ _ _ _ _ _ _ _ _ _ _ Tu Ht Ns)
      as (s' & d & m & fee & s1 & dx & _ & Ud & Um & _ & Md & _ & _ & _ & Hf & _ & _ & _ & _ & _ & _ & _ & Od & _ & _ & _ & _ & _ & Ld & _).
    apply unpack_tok_inv in Ud. destruct Ud as (Dd & _). assert (d = et) by congruence. subst d.
    assert (m = um).
    { apply unpack_mint_inv in Um. destruct Um as (Dm & Im & _). unfold pod_unpack_mint in Uum. rewrite Dm, Im in Uum. congruence. }
    subst m.
    assert (Ef : fee = wrap_fee e um amount).
    { unfold transfer_fee_of in Hf. unfold wrap_fee. destruct (ext_fee um) as [cfg|]; [|congruence].
      destruct (calculate_epoch_fee cfg (e_epoch e) amount); cbn in Hf; congruence. }
    specialize (E2 u up wp).
    rewrite (escrowed_intro e l u up wp et De Od Md Wet).
    rewrite (escrowed_intro e l1 u up wp (set_texts dx (set_amount (t_amount et + (amount - fee)) et))) in E2;
      [cbn in E2; rewrite Ef in E2; lia|rewrite Ld; reflexivity|rewrite Ld; reflexivity|exact Md|exact Wet].
Qed.

Lemma unwrap_step e c amount l l' :
  Inv e l -> lawful e e -> no_tw_signer (c_infos c) -> c_prog c = tw_id -> process_unwrap e c amount l = Ok l' ->
  Inv e l' /\ lasting l l' /\ pointers_kept e l l' /\
  pair_case e l l' (fun u wtp => exists utp r s ta more,
    map i_key (c_infos c) = [escrow_of e u utp wtp; r; authority_of e (wrapped_mint_of e u wtp); u; wtp; utp; s; wrapped_mint_of e u wtp; ta] ++ more /\
    unwraps e u wtp utp amount l l').
Proof.
  intros I L NS Hc H. destruct (map i_key (c_infos c)) as [|esc [|r [|a [|u [|wp [|up [|s [|w [|ta rest]]]]]]]]] eqn:Ek;
    try (unfold process_unwrap in H; inv_ok; destruct (c_infos c) as [|? [|? [|? [|? [|? [|? [|? [|? [|? ?]]]]]]]]]; discriminate).
  destruct (process_unwrap_inv _ _ _ _ _ _ _ _ _ _ _ _ _ _ _ Ek Hc H)
    as (Hn0 & Tu & Tw & Hw & Ha & He & msk & msb & l1 & um & extra & ms & _ & Cp & Hb & _ & _ & _ & Ht).
  subst w a esc. pose proof (plain_unsigned _ _ NS Cp) as NM.
  pose proof (changes_burn _ _ _ _ _ _ _ _ _ _ Hb) as C1. pose proof (conserves_burn _ _ _ _ _ _ _ _ _ _ Hb) as K1.
  pose proof (changes_inv _ _ _ _ _ I Tw NM C1 K1) as I1.
  assert (S1 : forall k, is_tw_pda k = true -> softens (l k) (l1 k)) by (intro k; exact (changes_soft _ _ _ _ _ k I Tw NM C1)).
  destruct (transfer_any_good _ _ _ _ _ _ _ _ _ _ _ _ _ _ I1 L Tu Ht) as (I2 & S2 & E2 & E3).
  assert (S12 : forall k, is_tw_pda k = true -> softens (l k) (l' k)).
  { intros k P. eapply softens_trans; [exact (S1 k P)|exact (S2 k P)]. }
  split; [exact I2|]. split; [exact (soft_lasting _ _ S12)|]. split; [exact (soft_pointers _ _ _ I S12)|].
  intros u' wtp' Tw' NP.
  pose proof (soft_supply _ _ _ (S12 _ (is_tw_pda_wrapped e u' wtp'))) as SU.
  assert (E1 : forall utp, token_program utp -> escrowed e l u' utp wtp' <= escrowed e l1 u' utp wtp').
  { intros utp Tt. exact (changes_escrow e wp msb l l1 u' utp wtp' I Tw NM C1 (fun _ _ => NP)). }
  assert (OTHER : forall utp, token_program utp -> escrow_of e u' utp wtp' <> escrow_of e u up wp -> escrowed e l u' utp wtp' <= escrowed e l' u' utp wtp').
  { intros utp Tt Ne. specialize (E1 utp Tt). specialize (E2 u' utp wtp' Tt Ne). lia. }
  destruct (pk_dec u' u) as [Eu|Nu]; [destruct (pk_dec wtp' wp) as [Ew|Nw]|].
  2,3: left; split; [exact SU|]; intros utp Tt; apply (OTHER utp Tt); intro Q; apply escrow_of_inj in Q; destruct Q as (? & ? & ?); congruence.
  subst u' wtp'.
  destruct (E3 u up wp Tu eq_refl) as [E|E].
  - left. split; [exact SU|]. intros utp Tt. destruct (pk_dec utp up) as [->|Np].
    + specialize (E1 up Tu). lia.
    + apply (OTHER utp Tt). intro Q; apply escrow_of_inj in Q; destruct Q as (? & ? & ?); congruence.
  - right. exists up, r, s, ta, rest. split; [reflexivity|]. split; [exact Tu|].
    apply burn_inv in Hb. destruct Hb as (ts & mw & s1 & Us & Um & _ & _ & _ & Ms & Auth & Hle & Os & Ow & Hws & _ & _ & Hl1).
    apply unpack_mint_inv in Um. destruct Um as (Dm & _). apply unpack_tok_inv in Us. destruct Us as (Ds & _).
    split; [|split].
    + assert (Q : l' (wrapped_mint_of e u wp) = l1 (wrapped_mint_of e u wp)).
      { destruct (pk_dec (escrow_of e u up wp) r) as [Er|Nr].
        - rewrite <- Er in Ht. apply transfer_checked_inv in Ht.
          destruct Ht as (? & ? & ? & ? & _ & _ & _ & _ & _ & _ & _ & _ & _ & _ & _ & _ & [[_ ->]|[Z _]]); [reflexivity|contradiction].
        - destruct (transfer_effect _ _ _ _ _ _ _ _ _ _ _ _ _ _ Tu Ht Nr)
            as (ss & dd & m & fee & ss1 & dx & Uss & Udd & _ & _ & _ & _ & _ & _ & _ & _ & _ & _ & _ & _ & _ & _ & _ & _ & _ & _ & _ & _ & _ & Lo).
          apply unpack_tok_inv in Uss. destruct Uss as (Dss & _). apply unpack_tok_inv in Udd. destruct Udd as (Ddd & _).
          pose proof (is_tw_pda_wrapped e u wp) as P.
          apply Lo; [intro Z; rewrite Z, (pda_no_tok _ _ _ _ I1 Dss) in P; discriminate|intro Z; rewrite Z, (pda_no_tok _ _ _ _ I1 Ddd) in P; discriminate|].
          right; right; right; right; exact P. }
      unfold supply. rewrite Q, Hl1, upd_same, Dm. cbn. lia.
    + assert (Q : escrowed e l1 u up wp = escrowed e l u up wp); [|lia].
      apply escrowed_same. destruct (pk_dec (escrow_of e u up wp) s) as [Es|Ns].
      * exfalso. assert (G : 0 < escrowed e l1 u up wp) by lia.
        destruct (escrowed_inv _ _ _ _ _ G) as (t & Dt & _ & Mt & _). rewrite Es, Hl1, upd_other, upd_same in Dt by exact Hws. cbn in Dt.
        inversion Dt; subst t. cbn in Mt.
        assert (t_mint s1 = t_mint ts).
        { destruct Auth as [[_ ->]|(_ & _ & Au)]; [reflexivity|]. apply authorize_debit_fields in Au. destruct Au as (Z & _). exact Z. }
        assert (u = wrapped_mint_of e u wp) by congruence. revert H1. apply unwrapped_neq_wrapped.
      * rewrite Hl1. rewrite !upd_other; [split; reflexivity|congruence|].
        intro Z. pose proof (is_tw_pda_wrapped e u wp) as P. rewrite Z, is_tw_pda_escrow in P. discriminate.
    + intros utp Tt Np. apply (OTHER utp Tt). intro Q; apply escrow_of_inj in Q; destruct Q as (? & ? & ?); congruence.
Qed.

(** ** The other instructions *)
Definition silent (e : env) (l l' : ledger) : Prop := forall u wtp, quiet e u wtp l l'.
Lemma escrow_not_tw e u utp wtp k : is_tw_pda k = true -> escrow_of e u utp wtp <> k.
Proof. intros P Q. rewrite <- Q, is_tw_pda_escrow in P. discriminate. Qed.
Lemma silent_pdas e l l' :
  (forall k, is_tw_pda k = false -> same_do (l k) (l' k)) ->
  (forall u wtp, supply l' (wrapped_mint_of e u wtp) <= supply l (wrapped_mint_of e u wtp)) -> silent e l l'.
Proof.
  intros S W u wtp. split; [apply W|]. intros utp _. rewrite (escrowed_same e l l' u utp wtp); [lia|]. apply S. apply is_tw_pda_escrow.
Qed.
Lemma system_blank e l k : Inv e l -> is_tw_pda k = true -> a_owner (l k) = system_id -> blank (l k).
Proof.
  intros I P O. destruct (inv_pda _ _ _ I P) as [B|[(u & p & T & _ & Op & _)|[(u & p & _ & _ & Op & _)|(u & v & _ & Op & _)]]]; [exact B| | |]; exfalso.
  - apply (token_not_system _ T). congruence.
  - rewrite O in Op. discriminate.
  - rewrite O in Op. discriminate.
Qed.
Lemma new_mint_ok e p w a mu : token_program p -> mint_ok p (new_mint e p w a mu).
Proof.
  intros T. unfold mint_ok. split; [discriminate|]. split; [unfold two64; cbn; lia|]. split; [|split; [|split]].
  - unfold distinct_mint_exts, new_mint. destruct T as [->| ->].
    + constructor.
    + repeat constructor; cbn; intros Q; repeat (destruct Q as [Q|Q]; [discriminate|]); exact Q.
  - intros ->. reflexivity.
  - intros _. destruct T as [->| ->]; reflexivity.
  - destruct T as [->| ->]; repeat constructor.
Qed.
Lemma create_step e c idem l l' :
  Inv e l -> c_prog c = tw_id -> process_create_mint default_customizer e c idem l = Ok l' ->
  Inv e l' /\ lasting l l' /\ pointers_kept e l l' /\ silent e l l'.
Proof.
  intros I Hc H. destruct (map i_key (c_infos c)) as [|w [|b [|u [|x [|p rest]]]]] eqn:Ek;
    try (unfold process_create_mint in H; destruct (c_infos c) as [|? [|? [|? [|? [|? ?]]]]]; discriminate).
  destruct (process_create_inv _ _ _ _ _ _ _ _ _ _ _ Ek Hc H) as (Hw & Hb & _ & [(_ & _ & _ & _ & ->)|X]).
  { split; [exact I|]. split; [intros k _; split; [intro B; exact B|intros m D; exists m; split; [exact D|reflexivity]]|].
    split; [intro; split; reflexivity|]. intros u' wtp. split; [lia|intros; lia]. }
  destruct X as (_ & _ & Ow & Ob & T & _ & _ & _ & _ & mu & _ & Lw & Lb & Lo). subst w b.
  set (w := wrapped_mint_of e u p) in *. set (b := backpointer_of e w) in *.
  assert (Pw : is_tw_pda w = true) by apply is_tw_pda_wrapped. assert (Pb : is_tw_pda b = true) by apply is_tw_pda_backpointer.
  assert (Bw : blank (l w)) by exact (system_blank _ _ _ I Pw Ow). assert (Bb : blank (l b)) by exact (system_blank _ _ _ I Pb Ob).
  assert (Nwb : w <> b) by apply wrapped_neq_backpointer.
  assert (OKw : acct_ok e w (l' w)).
  { rewrite Lw. split; [|split].
    - intros _. apply new_mint_ok; exact T.
    - intros _. right; left. exists u, p. split; [exact T|]. split; [reflexivity|]. split; [reflexivity|]. eexists. split; [reflexivity|].
      cbn. split; [reflexivity|]. split; [reflexivity|]. left. unfold promised_extensions. destruct T as [->| ->]; [left|right]; split; reflexivity.
    - intro Q. exfalso. revert Q. apply derived_not_native. }
  assert (OKb : acct_ok e b (l' b)).
  { rewrite Lb. split; [|split].
    - cbn. intros _. exact Logic.I.
    - intros _. right; right; left. exists u, p. split; [exact T|]. split; [reflexivity|]. split; reflexivity.
    - intro Q. exfalso. revert Q. apply derived_not_native. }
  assert (NBw : ~ blank (l' w)) by (rewrite Lw; intros [Z _]; discriminate).
  assert (NBb : ~ blank (l' b)) by (rewrite Lb; intros [Z _]; discriminate).
  split; [|split; [|split]].
  - apply (inv_from e l).
    + exact I.
    + intro k. destruct (pk_dec k w) as [->|N1]; [right|destruct (pk_dec k b) as [->|N2]; [right|left; rewrite Lo by assumption; split; reflexivity]].
      * split; [exact OKw|]. split; [apply derived_not_sol|]. split; [intro Q; exfalso; revert Q; apply derived_not_native|]. rewrite Lw. cbn. discriminate.
      * split; [exact OKb|]. split; [apply derived_not_sol|]. split; [intro Q; exfalso; revert Q; apply derived_not_native|]. rewrite Lb. cbn. discriminate.
    + intros u' p' T'. destruct (pk_dec (wrapped_mint_of e u' p') w) as [Q|Nq].
      * rewrite Q. fold b. split; intro Z; exfalso; [exact (NBw Z)|exact (NBb Z)].
      * rewrite !Lo; [exact (inv_pair _ _ I u' p' T')| | |exact Nq|].
        -- intro Z. symmetry in Z. revert Z. apply wrapped_neq_backpointer.
        -- intro Z. unfold b in Z. apply backpointer_of_inj in Z. exact (Nq Z).
        -- apply wrapped_neq_backpointer.
    + intros q v Tq Nq. apply (conserved_val e l l' I); auto. intro k.
      destruct (pk_dec k w) as [->|N1]; [right|destruct (pk_dec k b) as [->|N2]; [right|left; rewrite Lo by assumption; split; reflexivity]].
      * assert (Z : forall p0 v0, val p0 v0 l w = 0 /\ room p0 v0 l w = 0).
        { intros. destruct Bw as [Bw _]. apply val_of_other; intros; rewrite Bw; discriminate. }
        split; intros p0 v0 _ _; destruct (Z p0 v0) as [Z1 Z2]; [|rewrite Z2; lia]. rewrite Z1. unfold val. rewrite Lw. cbn [a_owner a_data data_val new_mint m_exts].
        destruct (pk_eqb p p0); [|lia]. destruct (pk_eqb w v0); [|lia]. destruct (pk_eqb p t22_id); reflexivity.
      * split; intros p0 v0 _ _.
        -- assert (val p0 v0 l' b = 0) as -> by (apply val_of_other; intros; rewrite Lb; discriminate). lia.
        -- assert (room p0 v0 l b = 0) as -> by (apply val_of_other; intros; destruct Bb as [Bb _]; rewrite Bb; discriminate). lia.
  - intros k P. destruct (pk_dec k w) as [->|N1].
    + split; [intro Z; exfalso; exact (NBw Z)|]. intros m D. destruct Bw as [Bw _]. congruence.
    + destruct (pk_dec k b) as [->|N2].
      * split; [intro Z; exfalso; exact (NBb Z)|]. intros m D. destruct Bb as [Bb _]. congruence.
      * rewrite Lo by assumption. split; [intro Z; exact Z|]. intros m D. exists m. auto.
  - intro u'. rewrite Lo; [split; reflexivity| |].
    + intro Z. symmetry in Z. revert Z. apply wrapped_neq_canonical.
    + intro Z. symmetry in Z. revert Z. apply backpointer_neq_canonical.
  - apply silent_pdas.
    + intros k P. rewrite Lo; [split; reflexivity|congruence|congruence].
    + intros u' wtp. destruct (pk_dec (wrapped_mint_of e u' wtp) w) as [Q|Nq].
      * rewrite Q. unfold supply. rewrite Lw. cbn. lia.
      * unfold supply. rewrite Lo; [lia|exact Nq|apply wrapped_neq_backpointer].
Qed.

Lemma escrow_neq_metaplex e u utp wtp w : escrow_of e u utp wtp <> metaplex_of e w.
Proof. intro H. unfold escrow_of, escrow_for, ata_of, metaplex_of in H. apply pda_inj in H. destruct H as [_ H]. discriminate. Qed.
Lemma close_step e c l l' :
  Inv e l -> c_prog c = tw_id -> process_close_stuck_escrow e c l = Ok l' ->
  Inv e l' /\ lasting l l' /\ pointers_kept e l l' /\ silent e l l'.
Proof.
  intros I Hc H. destruct (map i_key (c_infos c)) as [|esc [|d [|u [|w [|a [|p rest]]]]]] eqn:Ek;
    try (unfold process_close_stuck_escrow in H; destruct (c_infos c) as [|? [|? [|? [|? [|? [|? ?]]]]]]; discriminate).
  destruct (process_close_inv _ _ _ _ _ _ _ _ _ _ _ Ek Hc H) as (Oe & _ & _ & _ & He & et & m & msc & Ue & _ & Za & _ & _ & _ & _ & _ & _ & Ht).
  pose proof (conserves_tok_close _ _ _ _ _ _ _ _ _ Ht) as K.
  unfold pod_unpack_tok in Ue. destruct (a_data (l esc)) as [|  | |t| |] eqn:De; try discriminate; [destruct (_ && _); discriminate|].
  destruct (acct_state_eqb (t_state t) Uninitialized); [discriminate|]. inversion Ue; subst t. clear Ue.
  destruct (tok_close_tok_inv _ _ _ _ _ _ _ _ _ _ De Ht) as (Ned & _ & _ & _ & _ & _ & _ & Le & Ld & Lo).
  assert (Pe : is_tw_pda esc = false) by (rewrite He; apply is_tw_pda_escrow).
  assert (S : forall k, k <> esc -> same_do (l k) (l' k)).
  { intros k N1. destruct (pk_dec k d) as [->|N2]; [rewrite Ld|rewrite Lo by assumption]; split; reflexivity. }
  assert (SP : forall k, is_tw_pda k = true -> same_do (l k) (l' k)) by (intros k P; apply S; congruence).
  assert (SO : forall k, is_tw_pda k = true -> softens (l k) (l' k)) by (intros k P; left; exact (SP k P)).
  split; [|split; [|split]].
  - apply (inv_from e l).
    + exact I.
    + intro k. destruct (pk_dec k esc) as [->|N1]; [right|left; exact (S k N1)]. rewrite Le. split; [|split; [rewrite He; apply derived_not_sol|split]].
      * split; [|split].
        -- cbn. intros _. exact Logic.I.
        -- congruence.
        -- rewrite He. intro Q. exfalso. revert Q. apply derived_not_native.
      * rewrite He. intro Q. exfalso. revert Q. apply derived_not_native.
      * cbn. discriminate.
    + apply (pair_same e l l' I). intros k P. exact (softens_blank _ _ (SO k P)).
    + intros q v Tq Nq. assert (T : token_program t22_id) by (right; reflexivity).
      apply K; auto; [exact (inv_mints_fine _ _ _ I T)|exact (inv_natives_fine _ _ _ I T)|exact (inv_cons _ _ I q v Tq Nq)].
  - exact (soft_lasting _ _ SO).
  - exact (soft_pointers _ _ _ I SO).
  - intros u' wtp. split; [apply soft_supply, SO, is_tw_pda_wrapped|]. intros utp Tt.
    destruct (pk_dec (escrow_of e u' utp wtp) esc) as [Q|Nq]; [|rewrite (escrowed_same _ _ _ _ _ _ (S _ Nq)); lia].
    assert (escrowed e l u' utp wtp = 0) as ->; [|lia]. unfold escrowed. cbv zeta. rewrite Q, De, Za.
    destruct (_ && _); reflexivity.
Qed.

(** What the extension list of a Token-2022 wrapped mint looks like. *)
Lemma wrapped_t22_exts w a x : wrapped_exts t22_id w a x ->
  (x = [MxConfidentialTransferMint None true None; MxMetadataPointer (Some a) (Some w)]) \/
  exists t, x = [MxConfidentialTransferMint None true None; MxMetadataPointer (Some a) (Some w); MxTokenMetadata t] /\
     tm_update_authority t = Some a /\ tm_mint t = w /\ distinct_keys (tm_additional t).
Proof. intros [[[Z _]|[_ Z]]|(_ & Z)]; [discriminate|left; exact Z|right; exact Z]. Qed.

Lemma sync_t22_step e c l l' :
  Inv e l -> c_prog c = tw_id -> process_sync_metadata_to_token_2022 e c l = Ok l' ->
  Inv e l' /\ lasting l l' /\ pointers_kept e l l' /\ silent e l l'.
Proof.
  intros I Hc H. destruct (map i_key (c_infos c)) as [|w [|a [|u [|p rest]]]] eqn:Ek;
    try (unfold process_sync_metadata_to_token_2022 in H; destruct (c_infos c) as [|? [|? [|? [|? ?]]]]; discriminate).
  destruct (process_sync_t22_inv _ _ _ _ _ _ _ _ _ Ek Hc H) as (_ & Ow & Hw & Ha & _).
  assert (T : token_program t22_id) by (right; reflexivity).
  assert (Pw : is_tw_pda w = true) by (rewrite Hw; apply is_tw_pda_wrapped).
  destruct (inv_wrapped e l u t22_id I) as [[_ B]|[_ (_ & m0 & D0 & I0 & A0 & X0)]].
  { exfalso. rewrite <- Hw, Ow in B. discriminate. }
  rewrite <- Hw in D0, A0, X0. rewrite <- Ha in A0, X0.
  assert (Tw : token_program (a_owner (l w))) by (rewrite Ow; exact T).
  pose proof (inv_mint _ _ _ _ I Tw D0) as (M1 & M2 & M3 & M4 & M5 & M6).
  apply wrapped_t22_exts in X0.
  assert (ND : forall m t, pod_unpack_mint (a_data (l w)) = Ok m -> ext_metadata m = Some t -> NoDup (keys (tm_additional t))).
  { intros m t Um Et. unfold pod_unpack_mint in Um. rewrite D0, I0 in Um. inversion Um; subst m. unfold ext_metadata in Et.
    destruct X0 as [X0|(t0 & X0 & _ & _ & Dk)]; rewrite X0 in Et; cbn in Et; [discriminate|]. inversion Et; subst t. exact Dk. }
  destruct (process_sync_t22_result _ _ _ _ _ _ _ _ _ Ek Hc H ND)
    as (um & m & m' & t' & _ & Um & D' & I' & E' & Sy & _ & Ow' & _ & Lo & len & x & Em & Hlen & Hx).
  unfold pod_unpack_mint in Um. rewrite D0, I0 in Um. inversion Um; subst m. clear Um.
  destruct Sy as (_ & _ & _ & ND' & _).
  assert (X' : x = [MxConfidentialTransferMint None true None; MxMetadataPointer (Some a) (Some w); MxTokenMetadata t'] /\
               tm_update_authority t' = Some a /\ tm_mint t' = w).
  { destruct Hx as [(t & Et & -> & U & Mt)|(En & -> & U & Mt)].
    - unfold ext_metadata in Et. destruct X0 as [X0|(t0 & X0 & U0 & Mt0 & _)]; rewrite X0 in *; cbn in Et; [discriminate|].
      inversion Et; subst t. split; [reflexivity|]. split; congruence.
    - unfold ext_metadata in En. destruct X0 as [X0|(t0 & X0 & U0 & Mt0 & _)]; rewrite X0 in *; cbn in En; [|discriminate].
      split; [reflexivity|]. split; congruence. }
  destruct X' as (X' & U' & Mt').
  assert (S : forall k, k <> w -> same_do (l k) (l' k)) by (intros k Nk; rewrite Lo by exact Nk; split; reflexivity).
  assert (BL : forall k, is_tw_pda k = true -> blank (l k) <-> blank (l' k)).
  { intros k P. destruct (pk_dec k w) as [->|Nk].
    - unfold blank. rewrite D0, D'. split; intros [Z _]; discriminate.
    - rewrite (Lo k Nk). split; intro Z; exact Z. }
  split; [|split; [|split]].
  - apply (inv_from e l).
    + exact I.
    + intro k. destruct (pk_dec k w) as [->|N1]; [right|left; exact (S k N1)]. split; [|split; [rewrite Hw; apply derived_not_sol|split]].
      * split; [|split].
        -- intros _. rewrite D', Ow'. cbn. unfold mint_ok. rewrite Em. cbn. split; [exact M1|]. split; [exact M2|]. split; [|split; [|split]].
           ++ unfold distinct_mint_exts. cbn. rewrite X'. repeat constructor; cbn; intros Q; repeat (destruct Q as [Q|Q]; [discriminate|]); exact Q.
           ++ discriminate.
           ++ intros _. unfold tight. cbn. destruct Hlen as [[-> ->]| ->]; [exact (M5 I0)|reflexivity].
           ++ rewrite X'. repeat constructor.
        -- intros _. right; left. exists u, t22_id. split; [exact T|]. split; [exact Hw|]. split; [exact Ow'|]. exists m'.
           split; [exact D'|]. split; [exact I'|]. rewrite <- Ha. rewrite Em. cbn. split; [exact A0|].
           right. split; [reflexivity|]. exists t'. auto.
        -- rewrite Hw. intro Q. exfalso. revert Q. apply derived_not_native.
      * congruence.
      * rewrite D'. discriminate.
    + exact (pair_same e l l' I BL).
    + intros q v Tq Nq. apply (conserved_val e l l' I); auto. intro k. destruct (pk_dec k w) as [->|N1]; [right|left; exact (S k N1)].
      split; intros p0 v0 _ _.
      * unfold val. rewrite Ow', Ow, D', D0. destruct (pk_eqb t22_id p0); [|lia]. unfold data_val. destruct (pk_eqb w v0); [|lia].
        rewrite Em. cbn [m_exts set_mexts]. rewrite X'. unfold mint_withheld at 1. cbn. lia.
      * unfold room. rewrite Ow', Ow, D', D0. destruct (pk_eqb t22_id p0); [|lia]. unfold data_cap. destruct (pk_eqb w v0); [|lia].
        rewrite Em. cbn. lia.
  - intros k P. split; [apply BL; exact P|]. intros mk Dk. destruct (pk_dec k w) as [->|N1].
    + exists m'. split; [exact D'|]. rewrite Em. cbn. congruence.
    + rewrite (Lo k N1). exists mk. auto.
  - intro u'. apply S. rewrite Hw. intro Z. symmetry in Z. revert Z. apply wrapped_neq_canonical.
  - apply silent_pdas.
    + intros k P. apply S. congruence.
    + intros u' wtp. destruct (pk_dec (wrapped_mint_of e u' wtp) w) as [Q|Nq].
      * rewrite Q. unfold supply. rewrite D', D0, Em. cbn. lia.
      * unfold supply. rewrite Lo by exact Nq. lia.
Qed.

Lemma sync_spl_step e c l l' :
  Inv e l -> c_prog c = tw_id -> process_sync_metadata_to_spl_token e c l = Ok l' ->
  Inv e l' /\ lasting l l' /\ pointers_kept e l l' /\ silent e l l'.
Proof.
  intros I Hc H. destruct (map i_key (c_infos c)) as [|md [|a [|w [|u [|x [|sy [|rn rest]]]]]]] eqn:Ek;
    try (unfold process_sync_metadata_to_spl_token in H; destruct (c_infos c) as [|? [|? [|? [|? [|? [|? [|? ?]]]]]]]; discriminate).
  destruct (process_sync_spl_inv _ _ _ _ _ _ _ _ _ _ _ _ Ek Hc H) as (_ & _ & _ & Ha & Hmd & _ & um & d & _ & _ & X).
  assert (Pm : is_tw_pda md = false) by (rewrite Hmd; apply is_tw_pda_metaplex).
  assert (Pa : is_tw_pda a = true) by (rewrite Ha; apply is_tw_pda_authority).
  assert (Nam : a <> md) by congruence.
  assert (R : (forall k, k <> md -> same_do (l k) (l' k)) /\ (exists y, a_data (l' md) = DMpl y) /\ a_owner (l' md) = mpl_id /\
              (a_owner (l md) = system_id \/ a_owner (l md) = mpl_id)).
  { destruct X as [(De & Om & _ & _ & _ & _ & m & _ & _ & ->)|(_ & Om & old & _ & _ & _ & _ & ->)].
    - cbv zeta. split; [|split; [|split]].
      + intros k Nk. rewrite upd_other by congruence. destruct (pk_dec a k) as [<-|N2]; [rewrite upd_same|rewrite upd_other by exact N2]; split; reflexivity.
      + eexists. rewrite upd_same. reflexivity.
      + rewrite upd_same. reflexivity.
      + left. exact Om.
    - split; [|split; [|split]].
      + intros k Nk. rewrite upd_other by congruence. split; reflexivity.
      + eexists. rewrite upd_same. reflexivity.
      + rewrite upd_same. cbn. exact Om.
      + right. exact Om. }
  destruct R as (S & (y & Dm) & Om & Om0).
  assert (SP : forall k, is_tw_pda k = true -> same_do (l k) (l' k)) by (intros k P; apply S; congruence).
  assert (SO : forall k, is_tw_pda k = true -> softens (l k) (l' k)) by (intros k P; left; exact (SP k P)).
  assert (Q1 : mpl_id <> spl_token_id) by discriminate. assert (Q2 : mpl_id <> t22_id) by discriminate.
  assert (Nn : md <> native_mint_2022_id) by (rewrite Hmd; apply derived_not_native).
  split; [|split; [|split]].
  - apply (inv_from e l).
    + exact I.
    + intro k. destruct (pk_dec k md) as [->|N1]; [right|left; exact (S k N1)]. split; [|split; [rewrite Hmd; apply derived_not_sol|split]].
      * split; [|split].
        -- rewrite Om. intros [Z|Z]; exfalso; [exact (Q1 Z)|exact (Q2 Z)].
        -- congruence.
        -- intro Z. contradiction.
      * intro Z. contradiction.
      * rewrite Dm. discriminate.
    + apply (pair_same e l l' I). intros k P. exact (softens_blank _ _ (SO k P)).
    + intros q v Tq Nq. apply (conserved_val e l l' I); auto. intro k. destruct (pk_dec k md) as [->|N1]; [right|left; exact (S k N1)].
      split; intros p0 v0 T0 _.
      * assert (val p0 v0 l' md = 0) as -> by (apply val_of_other; intros; rewrite Dm; discriminate). lia.
      * assert (room p0 v0 l md = 0) as ->; [|lia]. unfold room. destruct (pk_eqb (a_owner (l md)) p0) eqn:Eo; [|reflexivity].
        apply pk_eqb_eq in Eo. exfalso. destruct Om0 as [Z|Z]; rewrite Z in Eo; subst p0.
        -- exact (token_not_system _ T0 eq_refl).
        -- destruct T0 as [T0|T0]; [exact (Q1 T0)|exact (Q2 T0)].
  - exact (soft_lasting _ _ SO).
  - exact (soft_pointers _ _ _ I SO).
  - intros u' wtp. split; [apply soft_supply, SO, is_tw_pda_wrapped|]. intros utp Tt.
    rewrite (escrowed_same e l l' u' utp wtp); [lia|]. destruct (pk_dec (escrow_of e u' utp wtp) md) as [Q|Nq]; [|exact (S _ Nq)].
    exfalso. revert Q. rewrite Hmd. apply escrow_neq_metaplex.
Qed.

Lemma set_pointer_step e c v l l' :
  Inv e l -> c_prog c = tw_id -> process_set_canonical_pointer e c v l = Ok l' ->
  Inv e l' /\ lasting l l' /\ silent e l l' /\
  exists a u x more m, map i_key (c_infos c) = [a; canonical_pointer_of e u; u; x] ++ more /\
    is_sig (c_infos c) a = true /\ token_program (a_owner (l u)) /\ pod_unpack_mint (a_data (l u)) = Ok m /\ m_auth m = Some a /\
    a_data (l' (canonical_pointer_of e u)) = DKey v /\ a_owner (l' (canonical_pointer_of e u)) = tw_id /\
    forall u', u' <> u -> same_do (l (canonical_pointer_of e u')) (l' (canonical_pointer_of e u')).
Proof.
  intros I Hc H. destruct (map i_key (c_infos c)) as [|a [|p [|u [|x rest]]]] eqn:Ek;
    try (unfold process_set_canonical_pointer in H; destruct (c_infos c) as [|? [|? [|? [|? ?]]]]; discriminate).
  destruct (process_set_pointer_inv _ _ _ _ _ _ _ _ _ _ Ek Hc H) as (Sa & Tu & Hp & _ & (m & Um & Am) & _ & Lp & Lo).
  subst p. set (p := canonical_pointer_of e u) in *. assert (Pp : is_tw_pda p = true) by apply is_tw_pda_canonical.
  assert (S : forall k, k <> p -> same_do (l k) (l' k)) by (intros k Nk; rewrite Lo by exact Nk; split; reflexivity).
  assert (B0 : blank (l p) \/ exists v0, a_data (l p) = DKey v0).
  { destruct (inv_pda _ _ _ I Pp) as [B|[(u' & q & _ & Z & _)|[(u' & q & _ & Z & _)|(u' & v0 & _ & _ & D)]]]; [left; exact B| | |right; exists v0; exact D]; exfalso.
    - symmetry in Z. revert Z. apply wrapped_neq_canonical.
    - symmetry in Z. revert Z. apply backpointer_neq_canonical. }
  assert (R0 : forall p0 v0, val p0 v0 l p = 0 /\ room p0 v0 l p = 0).
  { intros. apply val_of_other; intros; destruct B0 as [[B0 _]|(? & B0)]; rewrite B0; discriminate. }
  split; [|split; [|split]].
  - apply (inv_from e l).
    + exact I.
    + intro k. destruct (pk_dec k p) as [->|N1]; [right|left; exact (S k N1)]. rewrite Lp. split; [|split; [apply derived_not_sol|split]].
      * split; [|split].
        -- cbn. intros _. exact Logic.I.
        -- intros _. right; right; right. exists u, v. split; [reflexivity|]. split; reflexivity.
        -- intro Q. exfalso. revert Q. apply derived_not_native.
      * intro Q. exfalso. revert Q. apply derived_not_native.
      * cbn. discriminate.
    + intros u' q Tq. rewrite !Lo; [exact (inv_pair _ _ I u' q Tq)|apply backpointer_neq_canonical|apply wrapped_neq_canonical].
    + intros q v' Tq Nq. apply (conserved_val e l l' I); auto. intro k. destruct (pk_dec k p) as [->|N1]; [right|left; exact (S k N1)].
      split; intros p0 v0 _ _; destruct (R0 p0 v0) as [Z1 Z2].
      * assert (val p0 v0 l' p = 0) as -> by (apply val_of_other; intros; rewrite Lp; discriminate). lia.
      * rewrite Z2. lia.
  - intros k P. destruct (pk_dec k p) as [->|N1].
    + rewrite Lp. split; [intros [Z _]; discriminate|]. intros m0 D. exfalso. destruct B0 as [[B0 _]|(? & B0)]; congruence.
    + rewrite (Lo k N1). split; [intro Z; exact Z|]. intros m0 D. exists m0. auto.
  - apply silent_pdas.
    + intros k P. apply S. congruence.
    + intros u' wtp. unfold supply. rewrite Lo; [lia|]. apply wrapped_neq_canonical.
  - exists a, u, x, rest, m. split; [reflexivity|]. split; [exact Sa|]. split; [exact Tu|]. split; [exact Um|]. split; [exact Am|].
    fold p. rewrite Lp. split; [reflexivity|]. split; [reflexivity|]. intros u' Nu. apply S. intro Z. apply canonical_pointer_of_inj in Z. contradiction.
Qed.
