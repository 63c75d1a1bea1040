(** * PropJsMulti.v — C54: collecting and combining the signatures of a multisig. *)
From Verif Require Import Base Codec State Pda TokenProg Cpi Ata Meta Processor Builders Cli Js Tac PdaProofs TokProofs ProcProofs Spec HistorySpec CliSpec JsSpec CloseProofs SpecLemmas
  WrapProofs CreateProofs CreateSpec InvState InvHist PropWrap PropEscrow CliProofs CliSign CliCreate CodecProofs PropBuilders PropCreate PropCli PropCliEscrow PropCliWrap PropCliUnwrap PropJs PropJsTx PropJsUnwrap
  Demo Demo2 DemoHist.

(** ** Equality of messages *)
Lemma list_eqb_eq {A} (f : A -> A -> bool) : (forall a b, f a b = true <-> a = b) -> forall x y, list_eqb f x y = true <-> x = y.
Proof.
  intro F. induction x as [|a r IH]; intros [|b q]; cbn [list_eqb]; [split; reflexivity|split; discriminate|split; discriminate|].
  rewrite andb_true_iff, F, IH. split; [intros [-> ->]; reflexivity|intro H; injection H as -> ->; split; reflexivity].
Qed.
Lemma info_eqb_eq a b : info_eqb a b = true <-> a = b.
Proof.
  unfold info_eqb. rewrite !andb_true_iff, pk_eqb_eq, !Bool.eqb_true_iff. destruct a, b; cbn.
  split; [intros [[-> ->] ->]; reflexivity|intro H; injection H as -> -> ->; repeat split].
Qed.
Lemma message_eqb_eq m m' : message_eqb m m' = true <-> m = m'.
Proof.
  unfold message_eqb. rewrite !andb_true_iff, !pk_eqb_eq, (list_eqb_eq info_eqb info_eqb_eq), (list_eqb_eq N.eqb N.eqb_eq), N.eqb_eq.
  destruct m as [p [g ms d] h], m' as [p' [g' ms' d'] h']; cbn [mg_payer mg_ix mg_hash tx_prog tx_metas tx_data].
  split; [intros [[[[-> ->] ->] ->] ->]; reflexivity|intro H; injection H as -> -> -> -> ->; repeat split].
Qed.
Lemma messages_equal_ok txs : messages_equal txs = Ok true -> exists t r, txs = t :: r /\ forall x, In x txs -> sn_msg x = sn_msg t.
Proof.
  destruct txs as [|t [|t2 r]]; cbn [messages_equal]; intro H; [discriminate H| |].
  - exists t, []. split; [reflexivity|]. intros x [<-|[]]. reflexivity.
  - exists t, (t2 :: r). split; [reflexivity|]. injection H as H. intros x Hx. change (forallb (fun x => message_eqb (sn_msg t) (sn_msg x)) (t :: t2 :: r) = true) in H.
    rewrite forallb_forall in H. specialize (H x Hx). apply message_eqb_eq in H. symmetry. exact H.
Qed.
Lemma messages_equal_yes t r : (forall x, In x (t :: r) -> sn_msg x = sn_msg t) -> messages_equal (t :: r) = Ok true.
Proof.
  intro H. destruct r as [|t2 r]; [reflexivity|]. unfold messages_equal. f_equal. apply forallb_forall. intros x Hx. apply message_eqb_eq. symmetry. exact (H x Hx).
Qed.

(** ** Objects as ordered maps *)
Lemma js_set_keys {A} k (v : A) r : map fst (js_set k v r) = if pk_mem k (map fst r) then map fst r else map fst r ++ [k].
Proof.
  induction r as [|[k' v'] q IH]; [reflexivity|]. cbn [js_set map fst]. destruct (pk_eqb k' k) eqn:E.
  - apply pk_eqb_eq in E. subst k'. cbn [map fst]. assert (X : pk_mem k (k :: map fst q) = true) by (apply pk_mem_In; left; reflexivity). rewrite X. reflexivity.
  - cbn [map fst]. rewrite IH. assert (X : pk_mem k (k' :: map fst q) = pk_mem k (map fst q)).
    { destruct (pk_mem k (map fst q)) eqn:F; [apply pk_mem_In; right; apply pk_mem_In; exact F|]. destruct (pk_mem k (k' :: map fst q)) eqn:G; [|reflexivity].
      apply pk_mem_In in G. destruct G as [G|G]; [subst k'; rewrite pk_eqb_refl in E; discriminate E|]. apply pk_mem_In in G. rewrite F in G. discriminate G. }
    rewrite X. destruct (pk_mem k (map fst q)); reflexivity.
Qed.
Lemma js_set_in {A} k (v : A) r k' v' : In (k', v') (js_set k v r) -> (k' = k /\ v' = v) \/ In (k', v') r.
Proof.
  induction r as [|[a b] q IH]; cbn [js_set].
  - intros [H|[]]. injection H as <- <-. left. split; reflexivity.
  - destruct (pk_eqb a k) eqn:E.
    + intros [H|H]; [|right; right; exact H]. injection H as <- <-. left. apply pk_eqb_eq in E. split; [exact E|reflexivity].
    + intros [H|H]; [right; left; exact H|]. destruct (IH H) as [Q|Q]; [left; exact Q|right; right; exact Q].
Qed.
Lemma js_set_same {A} k (v : A) r : In (k, v) (js_set k v r).
Proof.
  induction r as [|[a b] q IH]; cbn [js_set]; [left; reflexivity|]. destruct (pk_eqb a k) eqn:E; [apply pk_eqb_eq in E; subst a; left; reflexivity|right; exact IH].
Qed.
Lemma js_set_other {A} k (v : A) r k' v' : k' <> k -> In (k', v') r -> In (k', v') (js_set k v r).
Proof.
  intros N H. induction r as [|[a b] q IH]; [destruct H|]. cbn [js_set]. destruct (pk_eqb a k) eqn:E.
  - destruct H as [H|H]; [injection H as -> ->; apply pk_eqb_eq in E; contradiction|right; exact H].
  - destruct H as [H|H]; [left; exact H|right; exact (IH H)].
Qed.
Lemma js_set_nodup {A} k (v : A) r : NoDup (map fst r) -> NoDup (map fst (js_set k v r)).
Proof.
  intro H. rewrite js_set_keys. destruct (pk_mem k (map fst r)) eqn:E; [exact H|]. apply NoDup_app_intro; [exact H|repeat constructor; intros []|]. intros x X [<-|[]]. apply pk_mem_In in X. rewrite X in E. discriminate E.
Qed.

(** ** Combining *)
Lemma fill_fold_in (ss : list (pubkey * option signature)) : forall (r : list (pubkey * option signature)) k v, In (k, v) (fold_left (fun r p => match snd p with Some s => js_set (fst p) (Some s) r | None => r end) ss r) ->
  In (k, v) r \/ (In (k, v) ss /\ v <> None).
Proof.
  induction ss as [|[a [b|]] q IH]; intros r k v H; [left; exact H| |].
  - cbn [fold_left snd fst] in H. apply IH in H. destruct H as [H|[H N]]; [|right; split; [right; exact H|exact N]].
    apply js_set_in in H. destruct H as [[-> ->]|H]; [right; split; [left; reflexivity|discriminate]|left; exact H].
  - cbn [fold_left snd] in H. apply IH in H. destruct H as [H|[H N]]; [left; exact H|right; split; [right; exact H|exact N]].
Qed.
Lemma fill_in r t k (v : option signature) : In (k, v) (fill r t) -> In (k, v) r \/ (In (k, v) (sn_sigs t) /\ v <> None).
Proof. apply fill_fold_in. Qed.
Lemma fills_in txs : forall r k v, In (k, v) (fold_left fill txs r) -> In (k, v) r \/ (v <> None /\ exists t, In t txs /\ In (k, v) (sn_sigs t)).
Proof.
  induction txs as [|t q IH]; intros r k v H; [left; exact H|]. cbn [fold_left] in H. apply IH in H. destruct H as [H|(N & x & Hx & H)].
  - apply fill_in in H. destruct H as [H|[H N]]; [left; exact H|right; split; [exact N|]]. exists t. split; [left; reflexivity|exact H].
  - right. split; [exact N|]. exists x. split; [right; exact Hx|exact H].
Qed.
Definition filled (r : list (pubkey * option signature)) (k : pubkey) : Prop := exists s, In (k, Some s) r.
Lemma set_filled k s r k' : k' = k \/ filled r k' -> filled (js_set k (Some s) r) k'.
Proof.
  intros H. destruct (pk_dec k' k) as [-> |N]; [exists s; apply js_set_same|]. destruct H as [H|[x H]]; [contradiction|]. exists x. apply js_set_other; assumption.
Qed.
Lemma fill_fold_filled (ss : list (pubkey * option signature)) : forall (r : list (pubkey * option signature)) k, filled r k \/ (exists s, In (k, Some s) ss) ->
  filled (fold_left (fun r p => match snd p with Some s => js_set (fst p) (Some s) r | None => r end) ss r) k.
Proof.
  induction ss as [|[a [b|]] q IH]; intros r k H.
  - destruct H as [H|[s []]]. exact H.
  - cbn [fold_left snd fst]. apply IH. destruct H as [H|(s & [H|H])]; [left; apply set_filled; right; exact H|injection H as -> ->; left; apply set_filled; left; reflexivity|right; exists s; exact H].
  - cbn [fold_left snd]. apply IH. destruct H as [H|(s & [H|H])]; [left; exact H|discriminate H|right; exists s; exact H].
Qed.
Lemma fills_filled txs : forall r k, filled r k \/ (exists t, In t txs /\ has_signed t k) -> filled (fold_left fill txs r) k.
Proof.
  induction txs as [|t q IH]; intros r k H.
  - destruct H as [H|(t & [] & _)]. exact H.
  - cbn [fold_left]. apply IH. destruct H as [H|(x & [<-|Hx] & H)]; [left; apply fill_fold_filled; left; exact H|left; apply fill_fold_filled; right; exact H|right; exists x; split; [exact Hx|exact H]].
Qed.
Lemma fill_fold_nodup (ss : list (pubkey * option signature)) : forall (r : list (pubkey * option signature)), NoDup (map fst r) -> NoDup (map fst (fold_left (fun r p => match snd p with Some s => js_set (fst p) (Some s) r | None => r end) ss r)).
Proof. induction ss as [|[a [b|]] q IH]; intros r H; [exact H| |]; cbn [fold_left snd fst]; apply IH; [apply js_set_nodup|]; exact H. Qed.
Lemma fills_nodup txs : forall r, NoDup (map fst r) -> NoDup (map fst (fold_left fill txs r)).
Proof. induction txs as [|t q IH]; intros r H; [exact H|]. cbn [fold_left]. apply IH. apply fill_fold_nodup. exact H. Qed.
(** New keys go to the end. *)
Lemma fill_fold_keys (ss : list (pubkey * option signature)) : forall (r : list (pubkey * option signature)), exists more, map fst (fold_left (fun r p => match snd p with Some s => js_set (fst p) (Some s) r | None => r end) ss r) = map fst r ++ more /\
  forall k, In k more -> In k (map fst ss) /\ ~ In k (map fst r).
Proof.
  induction ss as [|[a [b|]] q IH]; intros r.
  - exists []. split; [symmetry; apply app_nil_r|intros k []].
  - cbn [fold_left snd fst]. destruct (IH (js_set a (Some b) r)) as (more & E & M). rewrite js_set_keys in E. destruct (pk_mem a (map fst r)) eqn:F.
    + exists more. split; [exact E|]. intros k Hk. destruct (M k Hk) as [M1 M2]. rewrite js_set_keys, F in M2. split; [right; exact M1|exact M2].
    + exists (a :: more). split; [rewrite E, <- app_assoc; reflexivity|]. intros k [<-|Hk].
      * split; [left; reflexivity|]. intro X. apply pk_mem_In in X. rewrite X in F. discriminate F.
      * destruct (M k Hk) as [M1 M2]. rewrite js_set_keys, F in M2. split; [right; exact M1|]. intro X. apply M2. apply in_or_app. left. exact X.
  - cbn [fold_left snd]. destruct (IH r) as (more & E & M). exists more. split; [exact E|]. intros k Hk. destruct (M k Hk) as [M1 M2]. split; [right; exact M1|exact M2].
Qed.
Lemma fills_keys txs : forall r, exists more, map fst (fold_left fill txs r) = map fst r ++ more /\
  forall k, In k more -> (exists t, In t txs /\ In k (map fst (sn_sigs t))) /\ ~ In k (map fst r).
Proof.
  induction txs as [|t q IH]; intros r.
  - exists []. split; [symmetry; apply app_nil_r|intros k []].
  - cbn [fold_left]. destruct (fill_fold_keys (sn_sigs t) r) as (m1 & E1 & M1). destruct (IH (fill r t)) as (m2 & E2 & M2). change (map fst (fill r t) = map fst r ++ m1) in E1.
    exists (m1 ++ m2). split; [rewrite E2, E1, app_assoc; reflexivity|]. intros k Hk. apply in_app_or in Hk. destruct Hk as [Hk|Hk].
    + destruct (M1 k Hk) as [Q1 Q2]. split; [exists t; split; [left; reflexivity|exact Q1]|exact Q2].
    + destruct (M2 k Hk) as [(x & Q0 & Q1) Q2]. split; [exists x; split; [right; exact Q0|exact Q1]|]. intro X. apply Q2. rewrite E1. apply in_or_app. left. exact X.
Qed.
(** The first pass: every key of the first copy once, unsigned. *)
Definition blank (ss : list (pubkey * option signature)) : list (pubkey * option signature) := fold_left (fun r p => js_set (fst p) None r) ss [].
Lemma blank_fold (ss : list (pubkey * option signature)) : forall (r : list (pubkey * option signature)), (forall k v, In (k, v) r -> v = None) -> NoDup (map fst r) ->
  let b := fold_left (fun r p => js_set (fst p) None r) ss r in
  (forall k v, In (k, v) b -> v = None) /\ NoDup (map fst b) /\ (forall k, In k (map fst b) <-> In k (map fst r) \/ In k (map fst ss)) /\
  (NoDup (map fst r ++ map fst ss) -> map fst b = map fst r ++ map fst ss).
Proof.
  induction ss as [|[a x] q IH]; intros r H D b.
  - subst b. split; [exact H|]. split; [exact D|]. split; [intro k; split; [intro X; left; exact X|intros [X|[]]; exact X]|]. intros _. symmetry. apply app_nil_r.
  - subst b. cbn [fold_left fst]. destruct (IH (js_set a None r)) as (I1 & I2 & I3 & I4).
    { intros k v Hk. apply js_set_in in Hk. destruct Hk as [[_ ->]|Hk]; [reflexivity|exact (H k v Hk)]. } { apply js_set_nodup. exact D. }
    split; [exact I1|]. split; [exact I2|]. split.
    + intro k. rewrite I3, js_set_keys. cbn [map fst]. destruct (pk_mem a (map fst r)) eqn:F.
      * split; [intros [X|X]; [left; exact X|right; right; exact X]|]. intros [X|[<-|X]]; [left; exact X|left; apply pk_mem_In; exact F|right; exact X].
      * rewrite in_app_iff. cbn [In]. clear. tauto.
    + intro N. cbn [map fst] in N. assert (F : pk_mem a (map fst r) = false).
      { destruct (pk_mem a (map fst r)) eqn:F; [|reflexivity]. apply pk_mem_In in F. apply NoDup_remove_2 in N. exfalso. apply N. apply in_or_app. left. exact F. }
      rewrite I4; rewrite js_set_keys, F; rewrite <- app_assoc; [reflexivity|exact N].
Qed.
Lemma blank_ok ss : (forall k v, In (k, v) (blank ss) -> v = None) /\ NoDup (map fst (blank ss)) /\ (forall k, In k (map fst (blank ss)) <-> In k (map fst ss)) /\
  (NoDup (map fst ss) -> map fst (blank ss) = map fst ss).
Proof.
  destruct (blank_fold ss []) as (I1 & I2 & I3 & I4); [intros k v []|constructor|]. split; [exact I1|]. split; [exact I2|].
  split; [|exact I4]. intro k. unfold blank. rewrite I3. cbn [map In]. clear. tauto.
Qed.
Lemma all_set_ok r : forall ss, all_set r = Ok ss <-> map (fun p => (fst p, Some (snd p))) ss = r.
Proof.
  induction r as [|[k [s|]] q IH]; intros ss; cbn [all_set].
  - split; [intro H; injection H as <-; reflexivity|]. destruct ss; [reflexivity|discriminate].
  - split.
    + intro H. apply bind_ok in H. destruct H as (x & E & H). injection H as <-. apply IH in E. cbn [map fst snd]. rewrite E. reflexivity.
    + destruct ss as [|[a b] ss]; [discriminate|]. cbn [map fst snd]. intro H. injection H as -> -> H. apply IH in H. rewrite H. reflexivity.
  - split; [discriminate|]. destruct ss as [|[a b] ss]; [discriminate|]. discriminate.
Qed.
Lemma all_set_live r : NoDup (map fst r) -> (forall k, In k (map fst r) -> filled r k) -> exists ss, all_set r = Ok ss.
Proof.
  intros D H. assert (A : forall k v, In (k, v) r -> exists s, v = Some s).
  { intros k v Hk. destruct (H k) as [s Hs]; [apply in_map_iff; exists (k, v); split; [reflexivity|exact Hk]|]. exists s.
    clear - D Hk Hs. induction r as [|[a b] q IH]; [destruct Hk|]. cbn [map fst] in D. apply NoDup_cons_iff in D. destruct D as [D1 D2].
    destruct Hk as [Hk|Hk], Hs as [Hs|Hs].
    - rewrite Hs in Hk. injection Hk as ->. reflexivity.
    - injection Hk as -> ->. exfalso. apply D1. apply in_map_iff. exists (k, Some s). split; [reflexivity|exact Hs].
    - injection Hs as -> ->. exfalso. apply D1. apply in_map_iff. exists (k, v). split; [reflexivity|exact Hk].
    - exact (IH D2 Hk Hs). }
  clear - A. induction r as [|[a b] q IH]; [exists []; reflexivity|]. destruct (A a b (or_introl eq_refl)) as [s ->].
  destruct IH as [ss E]; [intros k v Hk; exact (A k v (or_intror Hk))|]. exists ((a, s) :: ss). cbn [all_set]. rewrite E. reflexivity.
Qed.
Lemma combine_inv txs m ss : combine txs = Ok (m, ss) -> exists t r, txs = t :: r /\ m = sn_msg t /\ (forall x, In x txs -> sn_msg x = m) /\
  map (fun p => (fst p, Some (snd p))) ss = fold_left fill txs (blank (sn_sigs t)).
Proof.
  unfold combine. intro H. apply bind_ok in H. destruct H as (b & E & H). apply bind_ok in H. destruct H as ([] & G & H). apply guard_ok in G. subst b.
  apply messages_equal_ok in E. destruct E as (t & r & -> & M). apply bind_ok in H. destruct H as (x & E & H). injection H as <- <-.
  exists t, r. split; [reflexivity|]. split; [reflexivity|]. split; [exact M|]. apply all_set_ok. exact E.
Qed.
(** ** C54.  What is combined is one message everybody signed a copy of; each signature was put there by somebody; nobody
    the first copy asks for is missing; the order is the first copy's. *)
Theorem C54_sound : forall txs m ss, combine txs = Ok (m, ss) ->
  exists t r, txs = t :: r /\ (forall x, In x txs -> sn_msg x = m) /\
    (forall k s, In (k, s) ss -> exists x, In x txs /\ In (k, Some s) (sn_sigs x)) /\
    (forall k, In k (map fst (sn_sigs t)) -> exists s, In (k, s) ss) /\
    NoDup (map fst ss) /\
    (NoDup (map fst (sn_sigs t)) -> exists more, map fst ss = map fst (sn_sigs t) ++ more /\
       forall k, In k more -> exists x, In x r /\ In k (map fst (sn_sigs x))).
Proof.
  intros txs m ss H. apply combine_inv in H. destruct H as (t & r & -> & -> & M & E). exists t, r. split; [reflexivity|]. split; [exact M|].
  destruct (blank_ok (sn_sigs t)) as (B1 & B2 & B3 & B4). destruct (fills_keys (t :: r) (blank (sn_sigs t))) as (more & K1 & K2).
  assert (Ks : map fst ss = map fst (blank (sn_sigs t)) ++ more) by (rewrite <- K1, <- E, map_map; reflexivity).
  split; [|split; [|split]].
  - intros k s Hk. assert (X : In (k, Some s) (fold_left fill (t :: r) (blank (sn_sigs t)))) by (rewrite <- E; apply in_map_iff; exists (k, s); split; [reflexivity|exact Hk]).
    apply fills_in in X. destruct X as [X|(_ & X)]; [apply B1 in X; discriminate X|exact X].
  - intros k Hk. apply B3 in Hk. assert (X : In k (map fst ss)) by (rewrite Ks; apply in_or_app; left; exact Hk). apply in_map_iff in X. destruct X as ([a s] & <- & X). exists s. exact X.
  - assert (X : NoDup (map fst (fold_left fill (t :: r) (blank (sn_sigs t))))) by (apply fills_nodup; exact B2). rewrite <- E, map_map in X. exact X.
  - intro D. exists more. rewrite Ks, (B4 D). split; [reflexivity|]. intros k Hk. destruct (K2 k Hk) as [(x & [<-|Hx] & Q) N]; [exfalso; apply N; apply B3; exact Q|exists x; split; [exact Hx|exact Q]].
Qed.
Print Assumptions C54_sound.
(** If the copies carry one message and between them everybody asked for has signed, they combine. *)
Theorem C54_complete : forall t r,
  (forall x, In x (t :: r) -> sn_msg x = sn_msg t) ->
  (forall k, In k (map fst (sn_sigs t)) -> exists x, In x (t :: r) /\ has_signed x k) ->
  exists ss, combine (t :: r) = Ok (sn_msg t, ss).
Proof.
  intros t r M S. destruct (blank_ok (sn_sigs t)) as (B1 & B2 & B3 & _). destruct (fills_keys (t :: r) (blank (sn_sigs t))) as (more & K1 & K2).
  destruct (all_set_live (fold_left fill (t :: r) (blank (sn_sigs t)))) as [ss E].
  - apply fills_nodup. exact B2.
  - intros k Hk. destruct (in_dec pk_dec k (map fst (sn_sigs t))) as [I|I].
    + apply fills_filled. right. exact (S k I).
    + apply in_map_iff in Hk. destruct Hk as ([a [s|]] & <- & Hk); [exists s; exact Hk|]. cbn [fst] in I. apply fills_in in Hk. destruct Hk as [Hk|(N & _)]; [|exfalso; apply N; reflexivity].
      exfalso. apply I. apply B3. apply in_map_iff. exists (a, None). split; [reflexivity|exact Hk].
  - exists ss. unfold combine. rewrite (messages_equal_yes t r M). cbn [bind guard]. change (fold_left (fun r0 p => js_set (fst p) None r0) (sn_sigs t) []) with (blank (sn_sigs t)).
    unfold combine_signatures. change (fold_left (fun r0 p => js_set (fst p) None r0) (sn_sigs t) []) with (blank (sn_sigs t)). rewrite E. reflexivity.
Qed.
Print Assumptions C54_complete.

(** ** On the network *)
Lemma slots_ok e m : NoDup (slots e m) /\ forall k, In k (slots e m) <-> must_sign e (mg_payer m) [TxTokenWrap (mg_ix m)] k = true.
Proof.
  unfold slots. split; [apply NoDup_nodup|]. intro k. rewrite nodup_In, filter_In. split; [intros [_ H]; exact H|]. intro H. split; [apply must_sign_key; exact H|exact H].
Qed.
Lemma genuine_inv m k s : genuine m (k, s) = true -> s = SigOf k m.
Proof.
  unfold genuine. cbn [snd fst]. destruct s as [q m'|n]; [|discriminate]. intro H. apply andb_true_iff in H. destruct H as [H1 H2].
  apply pk_eqb_eq in H1. apply message_eqb_eq in H2. subst q m'. reflexivity.
Qed.
Lemma genuine_yes m k : genuine m (k, SigOf k m) = true.
Proof. unfold genuine. cbn [snd fst]. rewrite pk_eqb_refl. cbn [andb]. apply message_eqb_eq. reflexivity. Qed.
(** Nothing is made up: what the network accepts carries, for everybody the message asks for, a genuine signature over
    this very message that came with one of the copies. *)
Theorem C54_genuine : forall e fee txs m ss l l',
  combine txs = Ok (m, ss) -> accepted e fee (to_network e (m, ss)) l l' ->
  forall k, k = mg_payer m \/ signed (tx_metas (mg_ix m)) k -> exists x slot, In x txs /\ In (slot, Some (SigOf k m)) (sn_sigs x).
Proof.
  intros e fee txs m ss l l' H A k Hk. apply (one_signs e) in Hk.
  assert (I : In k (tr_signed (to_network e (m, ss)))).
  { apply send_cases in A. destruct A as [(_ & err & X)|(_ & _ & _ & S & _)]; [discriminate X|]. exact (S k Hk). }
  unfold to_network in I. cbn [tr_signed] in I. destruct (_ =? _)%nat; [|destruct I]. apply in_map_iff in I. destruct I as ([q s] & E & I). cbn [fst] in E. subst q.
  apply filter_In in I. destruct I as [I G]. apply genuine_inv in G. subst s. apply in_combine_r in I. apply in_map_iff in I. destruct I as ([slot s] & E & I). cbn [snd] in E. subst s.
  destruct (C54_sound txs m ss H) as (t & r & _ & _ & F & _). destruct (F slot (SigOf k m) I) as (x & Hx & X). exists x, slot. split; [exact Hx|exact X].
Qed.
Print Assumptions C54_genuine.
Lemma combine_zip (A B : Type) : forall (s : list (A * B)), List.combine (map fst s) (map snd s) = s.
Proof. induction s as [|[a b] q IH]; [reflexivity|]. cbn [map List.combine fst snd]. rewrite IH. reflexivity. Qed.
Lemma junk_slot m : forall ks ss n, NoDup ks -> length ss = length ks -> In (SigJunk n) ss ->
  exists q, In q ks /\ ~ In q (map fst (filter (genuine m) (List.combine ks ss))).
Proof.
  induction ks as [|k q IH]; intros [|s r] n D L I; [destruct I|discriminate L|discriminate L|]. apply NoDup_cons_iff in D. destruct D as [D1 D2].
  cbn [List.combine filter]. destruct I as [-> |I].
  - exists k. split; [left; reflexivity|]. cbn [genuine snd]. intro X. apply in_map_iff in X. destruct X as ([a b] & E & X). cbn [fst] in E. subst a. apply filter_In in X.
    apply D1. exact (in_combine_l _ _ _ _ (proj1 X)).
  - injection L as L. destruct (IH r n D2 L I) as (x & X1 & X2). exists x. split; [right; exact X1|]. destruct (genuine m (k, s)); [|exact X2].
    cbn [map fst]. intros [X|X]; [subst x; exact (D1 X1)|exact (X2 X)].
Qed.
(** Signatures are not checked when they are combined, and later copies win: any participant can spoil a complete
    collection by adding a copy of the message with a junk signature for somebody.  It still combines; the network refuses
    the result (at no cost). *)
Theorem C54_junk_refuted : forall e fee l txs m ss k n, combine txs = Ok (m, ss) ->
  let spoiler := mkSigned m [(k, Some (SigJunk n))] in
  exists ss', combine (txs ++ [spoiler]) = Ok (m, ss') /\ refused e fee (to_network e (m, ss')) l l EMissingRequiredSignature.
Proof.
  intros e fee l txs m ss k n H spoiler. destruct (C54_sound txs m ss H) as (t & r & -> & M & F & A & _).
  assert (Mt : sn_msg t = m) by (apply M; left; reflexivity).
  destruct (C54_complete t (r ++ [spoiler])) as [ss' E].
  - intros x Hx. change (In x ((t :: r) ++ [spoiler])) in Hx. apply in_app_or in Hx. destruct Hx as [Hx|[<-|[]]]; [rewrite Mt; exact (M x Hx)|symmetry; exact Mt].
  - intros q Hq. destruct (A q Hq) as [s Hs]. destruct (F q s Hs) as (x & Hx & X). exists x. split; [change (In x ((t :: r) ++ [spoiler])); apply in_or_app; left; exact Hx|exists s; exact X].
  - rewrite Mt in E. exists ss'. split; [exact E|]. change (t :: r ++ [spoiler]) with ((t :: r) ++ [spoiler]) in E.
    apply combine_inv in E. destruct E as (t' & r' & Et & _ & _ & Es). injection Et as <- Et. rewrite fold_left_app in Es. cbn [fold_left] in Es.
    assert (J : In (k, Some (SigJunk n)) (map (fun p => (fst p, Some (snd p))) ss')) by (rewrite Es; apply js_set_same).
    apply in_map_iff in J. destruct J as ([a b] & J & I). cbn [fst snd] in J. injection J as -> ->.
    unfold refused, send. cbv zeta.
    destruct (forallb (fun k0 => negb (must_sign e (tr_payer (to_network e (m, ss'))) (tr_ixs (to_network e (m, ss'))) k0) || pk_mem k0 (tr_signed (to_network e (m, ss'))))
      (all_keys e (tr_payer (to_network e (m, ss'))) (tr_ixs (to_network e (m, ss'))))) eqn:C; [exfalso|reflexivity].
    pose proof (proj1 (signatures_cover e (to_network e (m, ss'))) C) as Cv. unfold to_network in Cv. cbn [tr_payer tr_ixs tr_signed] in Cv.
    destruct (slots_ok e m) as [D1 D2]. destruct (length ss' =? length (slots e m))%nat eqn:L.
    + apply Nat.eqb_eq in L. destruct (junk_slot m (slots e m) (map snd ss') n D1) as (q & Q1 & Q2).
      * rewrite map_length. exact L.
      * apply in_map_iff. exists (k, SigJunk n). split; [reflexivity|exact I].
      * apply Q2. apply Cv. apply D2. exact Q1.
    + apply (Cv (mg_payer m)). apply one_signs. left. reflexivity.
Qed.
Print Assumptions C54_junk_refuted.

(** ** Everybody signs the same message *)
Lemma raised_signs e P i k :
  must_sign e P [TxTokenWrap (mkTwIx (tx_prog i) (raised e P [TxTokenWrap i] (tx_metas i)) (tx_data i))] k = must_sign e P [TxTokenWrap i] k.
Proof.
  apply Bool.eq_iff_eq_true. rewrite !one_signs. cbn [tx_metas]. split; (intros [H|H]; [left; exact H|]).
  - apply raised_signed_inv in H. destruct H as [H _]. apply one_signs in H. exact H.
  - right. apply raised_signed; [left; reflexivity|exact H].
Qed.
Lemma raised_writes e P i k :
  may_write e P [TxTokenWrap (mkTwIx (tx_prog i) (raised e P [TxTokenWrap i] (tx_metas i)) (tx_data i))] k = may_write e P [TxTokenWrap i] k.
Proof.
  apply Bool.eq_iff_eq_true. rewrite !one_writes. cbn [tx_metas]. split; (intros [H|H]; [left; exact H|]).
  - destruct H as (m & Hm & Hk & Hw). unfold raised in Hm. apply in_map_iff in Hm. destruct Hm as (x & <- & Hx). cbn in Hk, Hw. subst k. apply one_writes in Hw. exact Hw.
  - right. apply raised_writable; [left; reflexivity|exact H].
Qed.
Definition as_compiled (e : env) (P : pubkey) (i : tw_instruction) : tw_instruction := mkTwIx (tx_prog i) (raised e P [TxTokenWrap i] (tx_metas i)) (tx_data i).
Lemma raised_twice e P i : raised e P [TxTokenWrap (as_compiled e P i)] (tx_metas (as_compiled e P i)) = raised e P [TxTokenWrap i] (tx_metas i).
Proof.
  transitivity (map (fun m => mkInfo (i_key m) (must_sign e P [TxTokenWrap i] (i_key m)) (may_write e P [TxTokenWrap i] (i_key m))) (raised e P [TxTokenWrap i] (tx_metas i))).
  - apply map_ext. intro m. unfold as_compiled. rewrite raised_signs, raised_writes. reflexivity.
  - unfold raised. rewrite map_map. reflexivity.
Qed.
Lemma forallb_ext_in' {A} (f g : A -> bool) r : (forall x, f x = g x) -> forallb f r = forallb g r.
Proof. intro H. induction r as [|a q IH]; [reflexivity|]. cbn [forallb]. rewrite H, IH. reflexivity. Qed.
Lemma accepted_compiled e fee P i sigs sigs' l l' :
  accepted e fee (mkTx P [TxTokenWrap i] sigs) l l' -> (forall k, must_sign e P [TxTokenWrap i] k = true -> In k sigs') ->
  accepted e fee (mkTx P [TxTokenWrap (as_compiled e P i)] sigs') l l'.
Proof.
  unfold accepted, send. cbn [tr_payer tr_ixs tr_signed]. cbv zeta. intros A S.
  assert (C : forallb (fun k => negb (must_sign e P [TxTokenWrap (as_compiled e P i)] k) || pk_mem k sigs') (all_keys e P [TxTokenWrap (as_compiled e P i)]) = true).
  { apply (signatures_cover e (mkTx P [TxTokenWrap (as_compiled e P i)] sigs')). cbn [tr_payer tr_ixs tr_signed]. intros k Hk. unfold as_compiled in Hk. rewrite raised_signs in Hk. exact (S k Hk). }
  rewrite C. cbn [negb].
  destruct (negb (forallb _ _)); [discriminate A|]. destruct (negb (_ && _)); [discriminate A|].
  cbn [run_ixs run_ix] in A |- *. rewrite raised_twice. cbn [as_compiled tx_prog tx_data].
  destruct (process_instruction e (mkCtx (tx_prog i) (raised e P [TxTokenWrap i] (tx_metas i))) (tx_data i) (charge P fee l)) as [l2|err]; [|exact A]. cbn [bind] in A |- *.
  assert (R : rents_ok e P [TxTokenWrap (as_compiled e P i)] (charge P fee l) l2 = rents_ok e P [TxTokenWrap i] (charge P fee l) l2).
  { unfold rents_ok. assert (K : all_keys e P [TxTokenWrap (as_compiled e P i)] = all_keys e P [TxTokenWrap i]) by (unfold all_keys, as_compiled; cbn [flat_map ix_accounts tx_metas]; rewrite raised_keys; reflexivity).
    rewrite K. apply forallb_ext_in'. intro k. unfold as_compiled. rewrite raised_writes. reflexivity. }
  rewrite R. exact A.
Qed.
Lemma consistent_guard ss : consistent ss -> forallb (fun s => forallb (same_signer s) ss) ss = true.
Proof.
  intro H. apply forallb_forall. intros s Hs. apply forallb_forall. intros x Hx. unfold same_signer. destruct (pk_eqb (sg_key s) (sg_key x)) eqn:E; [|reflexivity].
  cbn [negb orb]. apply pk_eqb_eq in E. rewrite (H s x Hs Hx E). apply Bool.eqb_reflx.
Qed.
(** The copies of the participants, and their combination. *)
Lemma offline_combined e P members hash parts i (build : signer * list signer -> res js_ix) :
  participants P members parts -> (forall p, In p parts -> build p = Ok (mkJsIx (TxTokenWrap i) (snd p))) ->
  (forall k, must_sign e P [TxTokenWrap i] k = true -> k = P \/ In k members) ->
  exists copies ss, Forall2 (fun p t => js_offline e (fst p) hash (build p) = Ok t) parts copies /\ combine copies = Ok (compile e P i hash, ss) /\
    map fst ss = slots e (compile e P i hash) /\ (forall k s, In (k, s) ss -> s = SigOf k (compile e P i hash)) /\
    forall k, must_sign e P [TxTokenWrap i] k = true -> In k (tr_signed (to_network e (compile e P i hash, ss))).
Proof.
  intros (Pa & Pn & Ps) B Ms. set (m := compile e P i hash).
  set (copy := fun p : signer * list signer => mkSigned m (map (fun k => (k, if existsb (fun s => pk_eqb (sg_key s) k && sg_signs s) (fst p :: snd p) then Some (SigOf k m) else None)) (slots e m))).
  assert (Co : forall p, In p parts -> js_offline e (fst p) hash (build p) = Ok (copy p)).
  { intros p Hp. rewrite (B p Hp). destruct (Pa p Hp) as (K & _ & C). unfold js_offline. cbn [bind jx_ix jx_signers]. rewrite K. unfold partially_sign.
    rewrite (consistent_guard _ C). reflexivity. }
  assert (Kf : forall p, map fst (sn_sigs (copy p)) = slots e m) by (intro p; unfold copy; cbn [sn_sigs]; rewrite map_map; cbn [fst]; apply map_id).
  destruct (slots_ok e m) as [D1 D2].
  assert (Sl : forall k, In k (slots e m) <-> must_sign e P [TxTokenWrap i] k = true) by (intro k; rewrite D2; unfold m, compile; cbn [mg_payer mg_ix]; rewrite raised_signs; reflexivity).
  assert (Sg : forall k, In k (slots e m) -> exists x, In x (map copy parts) /\ has_signed x k).
  { intros k Hk. apply Sl in Hk. destruct (Ps k (Ms k Hk)) as (p & s & Hp & Hs & K & Y). exists (copy p). split; [apply in_map; exact Hp|].
    exists (SigOf k m). unfold copy. cbn [sn_sigs]. apply in_map_iff. exists k. split; [|apply Sl; exact Hk].
    assert (X : existsb (fun s0 => pk_eqb (sg_key s0) k && sg_signs s0) (fst p :: snd p) = true).
    { apply existsb_exists. exists s. split; [exact Hs|]. rewrite Y, K, pk_eqb_refl. reflexivity. }
    rewrite X. reflexivity. }
  destruct parts as [|p0 rest] eqn:Ep; [exfalso; apply Pn; reflexivity|]. rewrite <- Ep in *.
  assert (Em : map copy parts = copy p0 :: map copy rest) by (rewrite Ep; reflexivity).
  destruct (C54_complete (copy p0) (map copy rest)) as [ss E].
  - rewrite <- Em. intros x Hx. apply in_map_iff in Hx. destruct Hx as (p & <- & _). reflexivity.
  - rewrite <- Em. intros k Hk. rewrite Kf in Hk. exact (Sg k Hk).
  - rewrite <- Em in E. change (sn_msg (copy p0)) with m in E. exists (map copy parts), ss.
    assert (F2 : Forall2 (fun p t => js_offline e (fst p) hash (build p) = Ok t) parts (map copy parts)).
    { clear - Co. revert Co. generalize parts as q. induction q as [|a q IH]; intro Co; [constructor|]. cbn [map]. constructor; [apply Co; left; reflexivity|]. apply IH. intros p Hp. apply Co. right. exact Hp. }
    split; [exact F2|]. split; [exact E|].
    destruct (C54_sound _ _ _ E) as (t & r & Et & _ & F & A & Dn & O). rewrite Em in Et. injection Et as <- <-. rewrite Kf in O. destruct (O D1) as (more & O1 & O2).
    assert (Z : more = []).
    { destruct more as [|k q]; [reflexivity|exfalso]. destruct (O2 k (or_introl eq_refl)) as (x & Hx & X). apply in_map_iff in Hx. destruct Hx as (p & <- & _). rewrite Kf in X.
      rewrite O1 in Dn. apply NoDup_remove_2 in Dn. apply Dn. apply in_or_app. left. exact X. }
    subst more. rewrite app_nil_r in O1. split; [exact O1|].
    assert (G : forall k s, In (k, s) ss -> s = SigOf k m).
    { intros k s Hk. destruct (F k s Hk) as (x & Hx & X). apply in_map_iff in Hx. destruct Hx as (p & <- & _). unfold copy in X. cbn [sn_sigs] in X. apply in_map_iff in X.
      destruct X as (q & X & _). destruct (existsb _ _); [|discriminate X]. injection X as -> <-. reflexivity. }
    split; [exact G|].
    intros k Hk. unfold to_network. cbn [tr_signed].
    assert (L : (length ss =? length (slots e m))%nat = true) by (apply Nat.eqb_eq; rewrite <- O1, map_length; reflexivity). fold m. rewrite L.
    rewrite <- O1, combine_zip. assert (I : In k (map fst ss)) by (rewrite O1; apply Sl; exact Hk). apply in_map_iff in I. destruct I as ([q s] & <- & I).
    apply in_map_iff. exists (q, s). split; [reflexivity|]. apply filter_In. split; [exact I|]. rewrite (G q s I). apply genuine_yes.
Qed.

(** ** End to end: in the situations of C42, members of a multisig who each sign a copy offline wrap what was asked. *)
Lemma members_sign e P ix ms owner m members : tx_metas ix = nine ms owner (m :: members) -> (forall x, In x ms -> i_signer x = false) ->
  forall k, must_sign e P [TxTokenWrap ix] k = true -> k = P \/ In k (m :: members).
Proof. intros E H k Hk. apply one_signs in Hk. destruct Hk as [Hk|Hk]; [left; exact Hk|right]. rewrite E in Hk. apply (nine_signed ms owner (m :: members) k H) in Hk. exact Hk. Qed.
Lemma all_of_them payer owner members : all_sign payer (mkSigner owner false) (map (fun k => mkSigner k true) members) [] \/ members = [].
Proof.
  destruct members as [|m r]; [right; reflexivity|left]. split; [intros s []|]. intros k _. right. intros s Hs _.
  change (In s (map (fun k => mkSigner k true) (m :: r))) in Hs. apply in_map_iff in Hs. destruct Hs as (q & <- & _). reflexivity.
Qed.
Lemma keys_of_them members : map sg_key (map (fun k => mkSigner k true) members) = members.
Proof. rewrite map_map. cbn [sg_key]. apply map_id. Qed.
Theorem C54_wraps : forall e0 e past l hash fee payer parts u utp wtp source recipient owner members n mu mw ts te tr,
  participants payer members parts -> members <> [] ->
  history e0 past l -> same_curve e0 e -> spl_or_t22 wtp -> spl_or_t22 utp ->
  let w := wrapped_mint_of e u wtp in let a := authority_of e w in let esc := escrow_of e u utp wtp in
  derivable e (wrapped_mint_seeds u wtp) tw_id -> derivable e (wrapped_mint_authority_seeds w) tw_id -> derivable e (ata_seeds a u utp) ata_id ->
  may_act l utp owner members -> helper_appends e l owner members ->
  wallet l payer -> fee + e_rent e 0 <= lamports l payer ->
  holder l utp u source owner ts -> open_account l source -> 0 < lamports l source -> 0 < n -> n <= t_amount ts -> n < two64 -> source <> esc ->
  transferable l utp u mu ->
  token_account l esc utp te -> t_state te = Initialized -> (ext_fee mu <> None -> In XtTransferFeeAmount (map acct_ext_type_of (t_exts te))) ->
  mint_account l w wtp mw -> token_account l recipient wtp tr -> t_mint tr = w -> t_state tr = Initialized ->
  (ever (no_permanent_delegate u) past l \/ supply l w + n < two64) ->
  (native_mint u -> lamports l esc + lamports l source < two64 /\ e_rent e (data_len (a_data (l source))) + n <= lamports l source /\
                    e_rent e (data_len (a_data (l esc))) <= lamports l esc) ->
  exists copies c l' f,
    Forall2 (fun p t => js_offline_wrap e (fst p) hash source wtp (Z.of_N n) w a (JsAddress owner) u recipient utp (snd p) = Ok t) parts copies /\
    combine copies = Ok c /\ accepted e fee (to_network e c) l l' /\ fee_for mu (e_epoch e) n f /\ f <= n /\
    balance l' source = balance l source - n /\ balance l' esc = balance l esc + (n - f) /\
    balance l' recipient = balance l recipient + (n - f) /\ supply l' w = supply l w + (n - f) /\
    paid l l' payer fee /\ only_changed l l' [payer; source; esc; w; recipient].
Proof.
  intros e0 e past l hash fee payer parts u utp wtp source recipient owner members n mu mw ts te tr Pa Nm H C Tw Tu w a esc D1 D2 D3 Act Hx Wal Fee
    Hs Op Ls Pos Le Lt Ne Hu He Ste Wit Hw Hr Mr Sr Sup Nat.
  pose proof Hs as (Hs1 & Ms & _).
  set (x := mkWrapArgs source wtp n (Some (mkSigner owner false)) (Some u) (Some recipient) (Some utp) (map (fun k => mkSigner k true) members) []).
  assert (Ask : wrap_asks e payer x u utp wtp source recipient owner members n).
  { unfold wrap_asks, x. cbn [wa_source wa_wtp wa_amount wa_mint wa_utp wa_recipient wa_authority wa_multisig wa_presigners acting sg_key].
    split; [reflexivity|]. split; [reflexivity|]. split; [reflexivity|]. split; [right; reflexivity|]. split; [right; reflexivity|]. split; [left; reflexivity|].
    split; [reflexivity|]. split; [apply keys_of_them|]. destruct (all_of_them payer owner members) as [Q|Q]; [exact Q|contradiction]. }
  assert (Mo : forall m, a_data (l owner) = DMultisig m -> a_owner (l owner) = utp).
  { intros m _. destruct Act as [(Q & _)|(_ & q & Q & _)]; [contradiction|exact Q]. }
  destruct (C42_wraps e0 e past l fee payer x u utp wtp source recipient owner members n mu mw ts te tr H C Tw Tu D1 D2 D3 Ask Act Hx Mo Wal Fee
    Hs Op Ls Pos Le Lt Ne Hu He Ste Wit Hw Hr Mr Sr Sup Nat) as (t & l' & f & T & A & R).
  rewrite (cli_wrap_eval e payer x u utp wtp source recipient owner members n l ts w a esc Ask Tw Tu Hs1 Ms Ls eq_refl eq_refl eq_refl D1 D2 D3) in T.
  set (ix := build_wrap tw_id recipient w a utp wtp source u esc owner members n) in *. apply partial_sign_inv in T. destruct T as (T1 & T2 & _).
  assert (At : accepted e fee (mkTx payer [TxTokenWrap ix] (tr_signed t)) l l') by (destruct t as [tp tx tsg]; cbn [tr_payer tr_ixs tr_signed] in *; subst tp tx; exact A).
  assert (N9 : exists ms, tx_metas ix = nine ms owner members /\ forall m, In m ms -> i_signer m = false).
  { exists [meta_w recipient false; meta_w w false; meta_r a false; meta_r utp false; meta_r wtp false; meta_w source false; meta_r u false; meta_w esc false].
    split; [reflexivity|]. intros m [<-|[<-|[<-|[<-|[<-|[<-|[<-|[<-|[]]]]]]]]]; reflexivity. }
  destruct N9 as (ms & N9 & Un).
  assert (Bd : forall p, In p parts -> js_build_wrap e source wtp (Z.of_N n) (JsAddress owner) u w a recipient utp (snd p) = Ok (mkJsIx (TxTokenWrap ix) (snd p))).
  { intros p Hp. destruct Pa as (Pa & _). destruct (Pa p Hp) as (_ & K & _). unfold js_build_wrap. rewrite js_ata_eq, (get_ata_live e a u utp D3). cbn [bind].
    change (ata_of e a u utp) with esc. destruct (snd p) as [|y r]; [exfalso; apply Nm; symmetry; exact K|].
    destruct (C48_wrap_unwrap tw_id recipient w a utp wtp source u esc y owner y r n (2 ^ 64) (JsAddress owner) [] Lt (or_intror (Z.le_refl _))) as (_ & Q & _).
    rewrite Q, K. reflexivity. }
  destruct (offline_combined e payer members hash parts ix (fun p => js_build_wrap e source wtp (Z.of_N n) (JsAddress owner) u w a recipient utp (snd p)) Pa Bd) as (copies & ss & F2 & Cb & _ & _ & S).
  { destruct members as [|m0 mr]; [contradiction|]. exact (members_sign e payer ix ms owner m0 mr N9 Un). }
  exists copies, (compile e payer ix hash, ss), l', f. split; [exact F2|]. split; [exact Cb|]. split; [|exact R].
  exact (accepted_compiled e fee payer ix (tr_signed t) (tr_signed (to_network e (compile e payer ix hash, ss))) l l' At S).
Qed.
Print Assumptions C54_wraps.
(** ... and in the situations of C43 they redeem what was asked. *)
Theorem C54_unwraps : forall e0 e past l hash fee payer parts u utp wtp source recipient owner members n mu ts tr,
  participants payer members parts -> members <> [] ->
  history e0 past l -> ever (no_permanent_delegate u) past l -> same_curve e0 e -> spl_or_t22 wtp -> spl_or_t22 utp ->
  let w := wrapped_mint_of e u wtp in let a := authority_of e w in let esc := escrow_of e u utp wtp in
  derivable e (wrapped_mint_seeds u wtp) tw_id -> derivable e (wrapped_mint_authority_seeds w) tw_id -> derivable e (ata_seeds a u utp) ata_id ->
  may_act l wtp owner members -> helper_finds e l owner members -> helper_usual e ->
  wallet l payer -> fee + e_rent e 0 <= lamports l payer ->
  holder l wtp w source owner ts -> 0 < lamports l source -> 0 < n -> n <= t_amount ts -> n < two64 ->
  transferable l utp u mu -> 0 < lamports l u -> can_receive e l utp u recipient mu tr -> 0 < lamports l recipient -> recipient <> esc -> open_account l esc ->
  (native_mint u -> lamports l recipient + lamports l esc < two64 /\ e_rent e (data_len (a_data (l esc))) + n <= lamports l esc /\
                    e_rent e (data_len (a_data (l recipient))) <= lamports l recipient) ->
  exists copies c l' f,
    Forall2 (fun p t => js_offline_unwrap e (fst p) hash source (Z.of_N n) w a u recipient utp wtp (JsAddress owner) (snd p) = Ok t) parts copies /\
    combine copies = Ok c /\ accepted e fee (to_network e c) l l' /\ fee_for mu (e_epoch e) n f /\ f <= n /\
    balance l' source = balance l source - n /\ supply l' w = supply l w - n /\ balance l' esc = balance l esc - n /\
    balance l' recipient = balance l recipient + (n - f) /\
    paid l l' payer fee /\ only_changed l l' [payer; source; esc; w; recipient].
Proof.
  intros e0 e past l hash fee payer parts u utp wtp source recipient owner members n mu ts tr Pa Nm H Ev C Tw Tu w a esc D1 D2 D3 Act Hf Hy Wal Fee
    Hs Ls Pos Le Lt Hu Lu Hr Lr Ne Op Nat.
  pose proof Hs as (Hs1 & Ms & _). pose proof Hu as (Hu1 & _). pose proof Hr as (Hr1 & Mr & _).
  set (x := mkUnwrapArgs source recipient n (Some (mkSigner owner false)) (Some u) (Some wtp) (Some utp) (map (fun k => mkSigner k true) members) []).
  assert (Ask : unwrap_asks payer x u utp wtp source recipient owner members n).
  { unfold unwrap_asks, x. cbn [ua_source ua_wtp ua_amount ua_mint ua_utp ua_recipient ua_authority ua_multisig ua_presigners acting sg_key].
    split; [reflexivity|]. split; [reflexivity|]. split; [reflexivity|]. split; [right; reflexivity|]. split; [right; reflexivity|]. split; [right; reflexivity|].
    split; [reflexivity|]. split; [apply keys_of_them|]. destruct (all_of_them payer owner members) as [Q|Q]; [exact Q|contradiction]. }
  destruct (C43_unwraps e0 e past l fee payer x u utp wtp source recipient owner members n mu ts tr H Ev C Tw Tu D1 D2 D3 Ask Act Hf Hy Wal Fee
    Hs Ls Pos Le Lt Hu Lu Hr Lr Ne Op Nat) as (t & l' & f & T & A & R).
  rewrite (cli_unwrap_eval e payer x u utp wtp source recipient owner members n l ts tr mu w a esc Ask Tw Tu Hs1 Ls Hr1 Mr Lr Hu1 Lu eq_refl eq_refl eq_refl D1 D2 D3) in T.
  set (ix := build_unwrap tw_id esc recipient a u wtp utp source w owner members n) in *. apply partial_sign_inv in T. destruct T as (T1 & T2 & _).
  assert (At : accepted e fee (mkTx payer [TxTokenWrap ix] (tr_signed t)) l l') by (destruct t as [tp tx tsg]; cbn [tr_payer tr_ixs tr_signed] in *; subst tp tx; exact A).
  assert (Bd : forall p, In p parts -> js_build_unwrap e source (Z.of_N n) w a u recipient utp wtp (JsAddress owner) (snd p) = Ok (mkJsIx (TxTokenWrap ix) (snd p))).
  { intros p Hp. destruct Pa as (Pa & _). destruct (Pa p Hp) as (_ & K & _). unfold js_build_unwrap. rewrite js_ata_eq, (get_ata_live e a u utp D3). cbn [bind].
    change (ata_of e a u utp) with esc. destruct (snd p) as [|y r]; [exfalso; apply Nm; symmetry; exact K|].
    destruct (C48_wrap_unwrap tw_id esc recipient a u wtp utp source w y owner y r n (2 ^ 64) (JsAddress owner) [] Lt (or_intror (Z.le_refl _))) as (_ & _ & _ & _ & Q & _).
    rewrite Q, K. reflexivity. }
  destruct (offline_combined e payer members hash parts ix (fun p => js_build_unwrap e source (Z.of_N n) w a u recipient utp wtp (JsAddress owner) (snd p)) Pa Bd) as (copies & ss & F2 & Cb & _ & _ & S).
  { destruct members as [|m0 mr]; [contradiction|].
    exact (members_sign e payer ix (eight_unwrap esc recipient a u wtp utp source w) owner m0 mr eq_refl (eight_unwrap_unsigned esc recipient a u wtp utp source w)). }
  exists copies, (compile e payer ix hash, ss), l', f. split; [exact F2|]. split; [exact Cb|]. split; [|exact R].
  exact (accepted_compiled e fee payer ix (tr_signed t) (tr_signed (to_network e (compile e payer ix hash, ss))) l l' At S).
Qed.
Print Assumptions C54_unwraps.

(** ** Examples: the 2-of-2 multisig of Alice and Bob, Carol paying; each of the three signs a copy of his own. *)
Definition three : list (signer * list signer) :=
  [ (mkSigner d_carol true, [mkSigner d_alice false; mkSigner d_bob false]);
    (mkSigner d_carol false, [mkSigner d_alice true; mkSigner d_bob false]);
    (mkSigner d_carol false, [mkSigner d_alice false; mkSigner d_bob true]) ].
Lemma three_participants : participants d_carol [d_alice; d_bob] three.
Proof.
  split; [|split].
  - intros p [<-|[<-|[<-|[]]]]; (split; [reflexivity|split; [reflexivity|]]); intros s x Hs Hx E; cbn in Hs, Hx;
      destruct Hs as [<-|[<-|[<-|[]]]]; destruct Hx as [<-|[<-|[<-|[]]]]; try reflexivity; discriminate E.
  - discriminate.
  - intros k [->|[<-|[<-|[]]]].
    + exists (mkSigner d_carol true, [mkSigner d_alice false; mkSigner d_bob false]), (mkSigner d_carol true). cbn. auto.
    + exists (mkSigner d_carol false, [mkSigner d_alice true; mkSigner d_bob false]), (mkSigner d_alice true). cbn. auto.
    + exists (mkSigner d_carol false, [mkSigner d_alice false; mkSigner d_bob true]), (mkSigner d_bob true). cbn. auto 8.
Qed.
Lemma demo_ms_appends l owner members : helper_appends demo_ms l owner members.
Proof.
  intros l1 accounts _ X _. cbn [demo_ms e_extra].
  assert (Y : map i_key (skipn 9 accounts) = members).
  { do 8 (destruct accounts as [|? accounts]; [discriminate X|]). destruct accounts as [|? accounts]; [discriminate X|]. cbn [skipn map] in X. injection X as _ X. exact X. }
  rewrite <- Y, map_map. reflexivity.
Qed.
Lemma demo_ms_usual : helper_usual demo_ms.
Proof.
  intros accounts S l1. exists (map i_key (skipn 9 accounts)). split; [cbn [demo_ms e_extra]; rewrite map_map; reflexivity|].
  intros k Hk. apply in_map_iff in Hk. destruct Hk as (i & <- & Hi). exists i. split; [|split; [reflexivity|exact (S i Hi)]].
  rewrite <- (firstn_skipn 9 accounts). apply in_or_app. right. exact Hi.
Qed.
Example C54_example : exists copies c l',
  Forall2 (fun p t => js_offline_wrap demo_ms (fst p) 77 d_ms_u t22_id 70 (d_w t22_id) (d_a t22_id) (JsAddress d_ms) d_u d_alice_w spl_token_id (snd p) = Ok t) three copies /\
  combine copies = Ok c /\ accepted demo_ms 5 (to_network demo_ms c) (now_of ms_story) l' /\
  balance l' d_ms_u = 430 /\ balance l' (d_esc spl_token_id t22_id) = 70 /\ paid (now_of ms_story) l' d_carol 5.
Proof.
  assert (S : exists ts, a_data (now_of ms_story d_ms_u) = DTok ts) by (eexists; vm_compute; reflexivity). destruct S as [ts Hs].
  assert (R : exists tr, a_data (now_of ms_story d_alice_w) = DTok tr) by (eexists; vm_compute; reflexivity). destruct R as [tr Hr].
  assert (E : exists te, a_data (now_of ms_story (d_esc spl_token_id t22_id)) = DTok te) by (eexists; vm_compute; reflexivity). destruct E as [te He].
  assert (M : exists mu, a_data (now_of ms_story d_u) = DMint mu) by (eexists; vm_compute; reflexivity). destruct M as [mu Hm].
  assert (W : exists mw, a_data (now_of ms_story (d_w t22_id)) = DMint mw) by (eexists; vm_compute; reflexivity). destruct W as [mw Hw].
  destruct (C54_wraps demo_env demo_ms (past_of ms_story) (now_of ms_story) 77 5 d_carol three d_u spl_token_id t22_id d_ms_u d_alice_w d_ms [d_alice; d_bob] 70 mu mw ts te tr)
    as (copies & c & l' & f & H1 & H1' & H2 & H5 & _ & H3 & H6 & _ & _ & H4 & _).
  - exact three_participants.
  - discriminate.
  - apply played_history. vm_compute. reflexivity.
  - intros s p. reflexivity.
  - right; reflexivity.
  - left; reflexivity.
  - exact (demo_derivable (wrapped_mint_seeds d_u t22_id) tw_id).
  - exact (demo_derivable (wrapped_mint_authority_seeds (d_w t22_id)) tw_id).
  - exact (demo_derivable (ata_seeds (d_a t22_id) d_u spl_token_id) ata_id).
  - right. split; [discriminate|]. exists (mkMultisig 2 [d_alice; d_bob]). split; [vm_compute; reflexivity|]. split; [vm_compute; reflexivity|vm_compute; discriminate].
  - apply demo_ms_appends.
  - vm_compute. repeat split; reflexivity.
  - vm_compute. discriminate.
  - revert Hs. vm_compute. intro X. inversion X; subst ts. repeat split; auto; discriminate.
  - intros t X. change (a_data (now_of ms_story d_ms_u) = DTok t) in X. rewrite Hs in X. inversion X; subst t. clear X. revert Hs. vm_compute. intro X. inversion X; subst ts. split; [reflexivity|intros []].
  - vm_compute. reflexivity.
  - lia.
  - revert Hs. vm_compute. intro X. inversion X; subst ts. discriminate.
  - reflexivity.
  - vm_compute. discriminate.
  - revert Hm. vm_compute. intro X. inversion X; subst mu. repeat split; auto; intros; discriminate.
  - revert He. vm_compute. intro X. inversion X; subst te. repeat split; auto; discriminate.
  - revert He. vm_compute. intro X. inversion X; subst te. reflexivity.
  - revert Hm. vm_compute. intro Y. inversion Y; subst mu. intro Z. exfalso. apply Z. reflexivity.
  - revert Hw. vm_compute. intro X. inversion X; subst mw. repeat split; auto; discriminate.
  - revert Hr. vm_compute. intro X. inversion X; subst tr. repeat split; auto; discriminate.
  - revert Hr. vm_compute. intro X. inversion X; subst tr. reflexivity.
  - revert Hr. vm_compute. intro X. inversion X; subst tr. reflexivity.
  - right. vm_compute. reflexivity.
  - intros [X|X]; exfalso; vm_compute in X; discriminate X.
  - exists copies, c, l'. split; [exact H1|]. split; [exact H1'|]. split; [exact H2|].
    assert (f = 0). { revert H5 Hm. clear. intros H5 Hm. revert Hm. vm_compute. intro X. inversion X; subst mu. exact H5. }
    subst f. split; [rewrite H3; vm_compute; reflexivity|]. split; [|exact H4].
    change (escrow_of demo_ms d_u spl_token_id t22_id) with (d_esc spl_token_id t22_id) in H6. rewrite H6. vm_compute. reflexivity.
Qed.

(** The wrapped tokens of a Token-2022 multisig: Alice wraps 300 and sends 90 of them to it. *)
Definition d_ms2 : pubkey := PkRaw 113.
Definition d_ms_w : pubkey := PkRaw 114.
Definition ms2_story : list cmd := ms_story ++
  [ CAlloc d_ms2 355 5000 t22_id; CTok t22_id [meta_w d_ms2 false; meta_r d_alice false; meta_r d_bob false] (TiInitializeMultisig (mkMultisig 2 [d_alice; d_bob]));
    CAlloc d_ms_w 165 5000 t22_id; CTok t22_id [meta_w d_ms_w false; meta_r (d_w t22_id) false] (TiInitializeAccount d_ms2 false);
    CTw (i_wrap 300);
    CTok t22_id [meta_w d_alice_w false; meta_r (d_w t22_id) false; meta_w d_ms_w false; meta_r d_alice true] (TiTransferChecked 90 6) ].
Lemma ms2_story_no_pd : ever (no_permanent_delegate d_u) (past_of ms2_story) (now_of ms2_story).
Proof.
  assert (H : forallb (fun x => match a_data (x d_u) with DMint m => match ext_permanent_delegate m with None => true | Some _ => false end | _ => true end)
                (now_of ms2_story :: past_of ms2_story) = true) by (vm_compute; reflexivity).
  rewrite forallb_forall in H. intros x Hx m (_ & D & _). specialize (H x Hx). rewrite D in H. destruct (ext_permanent_delegate m); [discriminate|reflexivity].
Qed.
Example C54_unwrap_example : exists copies c l',
  Forall2 (fun p t => js_offline_unwrap demo_ms (fst p) 77 d_ms_w 40 (d_w t22_id) (d_a t22_id) d_u d_alice_u spl_token_id t22_id (JsAddress d_ms2) (snd p) = Ok t) three copies /\
  combine copies = Ok c /\ accepted demo_ms 5 (to_network demo_ms c) (now_of ms2_story) l' /\
  balance l' d_ms_w = 50 /\ balance l' (d_esc spl_token_id t22_id) = 260 /\ paid (now_of ms2_story) l' d_carol 5.
Proof.
  assert (S : exists ts, a_data (now_of ms2_story d_ms_w) = DTok ts) by (eexists; vm_compute; reflexivity). destruct S as [ts Hs].
  assert (R : exists tr, a_data (now_of ms2_story d_alice_u) = DTok tr) by (eexists; vm_compute; reflexivity). destruct R as [tr Hr].
  assert (E : exists te, a_data (now_of ms2_story (d_esc spl_token_id t22_id)) = DTok te) by (eexists; vm_compute; reflexivity). destruct E as [te He].
  assert (M : exists mu, a_data (now_of ms2_story d_u) = DMint mu) by (eexists; vm_compute; reflexivity). destruct M as [mu Hm].
  destruct (C54_unwraps demo_env demo_ms (past_of ms2_story) (now_of ms2_story) 77 5 d_carol three d_u spl_token_id t22_id d_ms_w d_alice_u d_ms2 [d_alice; d_bob] 40 mu ts tr)
    as (copies & c & l' & f & H1 & H1' & H2 & H5 & _ & H3 & _ & H6 & _ & H4 & _).
  - exact three_participants.
  - discriminate.
  - apply played_history. vm_compute. reflexivity.
  - exact ms2_story_no_pd.
  - intros s p. reflexivity.
  - right; reflexivity.
  - left; reflexivity.
  - exact (demo_derivable (wrapped_mint_seeds d_u t22_id) tw_id).
  - exact (demo_derivable (wrapped_mint_authority_seeds (d_w t22_id)) tw_id).
  - exact (demo_derivable (ata_seeds (d_a t22_id) d_u spl_token_id) ata_id).
  - right. split; [discriminate|]. exists (mkMultisig 2 [d_alice; d_bob]). split; [vm_compute; reflexivity|]. split; [vm_compute; reflexivity|vm_compute; discriminate].
  - intros l1 accounts _ X _. cbn [demo_ms e_multisig]. rewrite X. reflexivity.
  - exact demo_ms_usual.
  - vm_compute. repeat split; reflexivity.
  - vm_compute. discriminate.
  - revert Hs. vm_compute. intro X. inversion X; subst ts. repeat split; auto; discriminate.
  - vm_compute. reflexivity.
  - lia.
  - revert Hs. vm_compute. intro X. inversion X; subst ts. discriminate.
  - reflexivity.
  - revert Hm. vm_compute. intro X. inversion X; subst mu. repeat split; auto; intros; discriminate.
  - vm_compute. reflexivity.
  - revert Hr. vm_compute. intro X. inversion X; subst tr. revert Hm. vm_compute. intro Y. inversion Y; subst mu.
    split; [repeat split; discriminate|]. split; [reflexivity|]. split; [reflexivity|]. split; [discriminate|]. intro Z. exfalso. apply Z. reflexivity.
  - vm_compute. reflexivity.
  - vm_compute. discriminate.
  - intros t X. change (a_data (now_of ms2_story (d_esc spl_token_id t22_id)) = DTok t) in X. rewrite He in X. inversion X; subst t. clear X. revert He. vm_compute. intro X. inversion X; subst te. split; [reflexivity|intros []].
  - intros [X|X]; exfalso; vm_compute in X; discriminate X.
  - exists copies, c, l'. split; [exact H1|]. split; [exact H1'|]. split; [exact H2|].
    assert (f = 0). { revert H5 Hm. clear. intros H5 Hm. revert Hm. vm_compute. intro X. inversion X; subst mu. exact H5. }
    subst f. split; [rewrite H3; vm_compute; reflexivity|]. split; [|exact H4].
    change (escrow_of demo_ms d_u spl_token_id t22_id) with (d_esc spl_token_id t22_id) in H6. rewrite H6. vm_compute. reflexivity.
Qed.
(** Mallory adds a copy of her own to the complete collection: Bob's slot with 64 bytes of nonsense. *)
Example C54_junk_example : exists copies m ss ss',
  Forall2 (fun p t => js_offline_wrap demo_ms (fst p) 77 d_ms_u t22_id 70 (d_w t22_id) (d_a t22_id) (JsAddress d_ms) d_u d_alice_w spl_token_id (snd p) = Ok t) three copies /\
  combine copies = Ok (m, ss) /\ (exists l', accepted demo_ms 5 (to_network demo_ms (m, ss)) (now_of ms_story) l') /\
  combine (copies ++ [mkSigned m [(d_bob, Some (SigJunk 9))]]) = Ok (m, ss') /\
  refused demo_ms 5 (to_network demo_ms (m, ss')) (now_of ms_story) (now_of ms_story) EMissingRequiredSignature.
Proof.
  destruct C54_example as (copies & [m ss] & l' & H1 & H2 & H3 & _).
  destruct (C54_junk_refuted demo_ms 5 (now_of ms_story) copies m ss d_bob 9 H2) as (ss' & H4 & H5).
  exists copies, m, ss, ss'. split; [exact H1|]. split; [exact H2|]. split; [exists l'; exact H3|]. split; [exact H4|exact H5].
Qed.
