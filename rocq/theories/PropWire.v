(** * PropWire.v — C72: transactions on the wire: which fit into a packet, and what the bytes everybody signs say. *)
From Coq Require Import Permutation.
From Verif Require Import Base Codec State Pda TokenProg Cpi Ata Meta Processor Builders Cli CliSpec CodecProofs Js JsSpec JsSync Wire CliProofs Demo Demo2 DemoHist HistorySpec Spec PropCliUnwrap PropJsUnwrap PropJsMulti.

(** ** Encodings: addresses are 32 bytes, and accounts are put in some order. *)
Definition lawful_encoding (c : encoding) : Prop :=
  (forall k, length (en_key c k) = 32%nat) /\ (forall ks, Permutation (en_order c ks) ks).

(** ** The list of accounts *)
Definition w_all (ixs : list wire_ix) : list pubkey := flat_map (fun ix => map i_key (wi_accounts ix) ++ [wi_program ix]) ixs.
Lemma others_in payer ixs k : In k (w_others payer ixs) <-> In k (w_all ixs) /\ k <> payer.
Proof.
  unfold w_others. rewrite filter_In, nodup_In. fold (w_all ixs). split; intros [A B]; (split; [exact A|]).
  - apply negb_true_iff, pk_eqb_neq in B. exact B.
  - apply negb_true_iff, pk_eqb_neq. exact B.
Qed.
Lemma others_nodup payer ixs : NoDup (payer :: w_others payer ixs).
Proof.
  constructor; [rewrite others_in; intros [_ H]; apply H; reflexivity|]. unfold w_others. apply NoDup_filter, NoDup_nodup.
Qed.
Lemma class_in c payer ixs s w k : lawful_encoding c ->
  In k (w_class c payer ixs s w) <-> In k (w_others payer ixs) /\ w_signs payer ixs k = s /\ w_writes payer ixs k = w.
Proof.
  intros [_ P]. unfold w_class. split; intro H.
  - apply (Permutation_in _ (P _)) in H. apply filter_In in H. destruct H as [H1 H2]. apply andb_true_iff in H2. destruct H2 as [A B].
    apply Bool.eqb_prop in A. apply Bool.eqb_prop in B. split; [exact H1|split; assumption].
  - destruct H as (H1 & A & B). apply (Permutation_in _ (Permutation_sym (P _))). apply filter_In. split; [exact H1|]. rewrite A, B, !Bool.eqb_reflx. reflexivity.
Qed.
Lemma keys_in c payer ixs k : lawful_encoding c -> In k (w_keys c payer ixs) <-> k = payer \/ In k (w_all ixs).
Proof.
  intro L. unfold w_keys. cbn [In]. rewrite !in_app_iff, !(class_in c payer ixs _ _ k L), others_in.
  destruct (w_signs payer ixs k), (w_writes payer ixs k); split; intro H;
    (destruct H as [H|H]; [left; congruence|]); destruct (pk_dec k payer) as [E|E]; (left; congruence) || (right; tauto) || idtac.
  all: tauto.
Qed.
Lemma split_two {A} (f g : A -> bool) r :
  length (filter f r) = (length (filter (fun k => f k && g k) r) + length (filter (fun k => f k && negb (g k)) r))%nat.
Proof. induction r as [|a q IH]; [reflexivity|]. cbn [filter]. destruct (f a), (g a); cbn [andb negb length]; rewrite ?IH; lia. Qed.
Lemma split_all {A} (f : A -> bool) r : length r = (length (filter f r) + length (filter (fun k => negb (f k)) r))%nat.
Proof. induction r as [|a q IH]; [reflexivity|]. cbn [filter]. destruct (f a); cbn [negb length]; rewrite IH; lia. Qed.
Lemma class_length c payer ixs s w : lawful_encoding c ->
  length (w_class c payer ixs s w) = length (filter (fun k => Bool.eqb (w_signs payer ixs k) s && Bool.eqb (w_writes payer ixs k) w) (w_others payer ixs)).
Proof. intros [_ P]. unfold w_class. apply Permutation_length. apply P. Qed.
Lemma eqb_true b : Bool.eqb b true = b. Proof. destruct b; reflexivity. Qed.
Lemma eqb_false b : Bool.eqb b false = negb b. Proof. destruct b; reflexivity. Qed.
Lemma signers_length c payer ixs : lawful_encoding c ->
  (length (w_class c payer ixs true true) + length (w_class c payer ixs true false))%nat = length (filter (w_signs payer ixs) (w_others payer ixs)).
Proof.
  intro L. rewrite !(class_length c payer ixs _ _ L), (split_two (w_signs payer ixs) (w_writes payer ixs)). f_equal; f_equal; apply filter_ext; intro k; rewrite ?eqb_true, ?eqb_false; reflexivity.
Qed.
Lemma keys_length c payer ixs : lawful_encoding c -> length (w_keys c payer ixs) = S (length (w_others payer ixs)).
Proof.
  intro L. unfold w_keys. cbn [length]. rewrite !app_length. f_equal. rewrite Nat.add_assoc, (signers_length c payer ixs L), (split_all (w_signs payer ixs) (w_others payer ixs)). f_equal.
  rewrite !(class_length c payer ixs _ _ L), (split_two (fun k => negb (w_signs payer ixs k)) (w_writes payer ixs)). f_equal; f_equal; apply filter_ext; intro k; rewrite ?eqb_true, ?eqb_false; reflexivity.
Qed.
Lemma keys_nodup c payer ixs : lawful_encoding c -> NoDup (w_keys c payer ixs).
Proof.
  intro L. apply (@NoDup_incl_NoDup _ (payer :: w_others payer ixs)); [exact (others_nodup payer ixs)| |].
  - rewrite (keys_length c payer ixs L). cbn [length]. lia.
  - intros k [<-|H]; apply (keys_in c payer ixs _ L); [left; reflexivity|right]. apply others_in in H. exact (proj1 H).
Qed.
Lemma signs_all payer ixs k : w_signs payer ixs k = true -> k = payer \/ In k (w_all ixs).
Proof.
  unfold w_signs. intro H. apply orb_true_iff in H. destruct H as [H|H]; [left; apply pk_eqb_eq; exact H|right].
  apply existsb_exists in H. destruct H as (ix & Hi & Hs). unfold is_sig in Hs. apply existsb_exists in Hs. destruct Hs as (m & Hm & Hk). apply andb_true_iff in Hk. destruct Hk as [Hk _]. apply pk_eqb_eq in Hk. subst k.
  unfold w_all. apply in_flat_map. exists ix. split; [exact Hi|]. apply in_or_app. left. apply in_map. exact Hm.
Qed.
Lemma signatures_count c payer ixs : lawful_encoding c -> w_signatures c payer ixs = length (filter (w_signs payer ixs) (payer :: w_others payer ixs)).
Proof.
  intro L. unfold w_signatures. rewrite (signers_length c payer ixs L). cbn [filter]. assert (E : w_signs payer ixs payer = true) by (unfold w_signs; rewrite pk_eqb_refl; reflexivity). rewrite E. reflexivity.
Qed.
Lemma signatures_at_most c payer ixs ks : lawful_encoding c -> (forall k, w_signs payer ixs k = true -> In k ks) -> (w_signatures c payer ixs <= length ks)%nat.
Proof.
  intros L H. rewrite (signatures_count c payer ixs L). apply NoDup_incl_length; [apply NoDup_filter, others_nodup|]. intros k Hk. apply filter_In in Hk. exact (H k (proj2 Hk)).
Qed.
Lemma signatures_at_least c payer ixs ks : lawful_encoding c -> NoDup ks -> (forall k, In k ks -> w_signs payer ixs k = true) -> (length ks <= w_signatures c payer ixs)%nat.
Proof.
  intros L Nd H. rewrite (signatures_count c payer ixs L). apply NoDup_incl_length; [exact Nd|]. intros k Hk. apply filter_In. split; [|exact (H k Hk)].
  destruct (pk_dec payer k) as [<-|Ne]; [left; reflexivity|right]. apply others_in. destruct (signs_all _ _ _ (H k Hk)) as [E|E]; [congruence|]. split; [exact E|congruence].
Qed.
Lemma keys_at_most c payer ixs ks : lawful_encoding c -> incl (payer :: w_all ixs) ks -> (length (w_keys c payer ixs) <= length ks)%nat.
Proof.
  intros L H. apply NoDup_incl_length; [exact (keys_nodup c payer ixs L)|]. intros k Hk. apply (keys_in c payer ixs k L) in Hk. apply H. destruct Hk as [->|Hk]; [left; reflexivity|right; exact Hk].
Qed.
Lemma keys_at_least c payer ixs ks : lawful_encoding c -> NoDup ks -> incl ks (payer :: w_all ixs) -> (length ks <= length (w_keys c payer ixs))%nat.
Proof.
  intros L Nd H. apply NoDup_incl_length; [exact Nd|]. intros k Hk. apply (keys_in c payer ixs k L). destruct (H k Hk) as [<-|X]; [left; reflexivity|right; exact X].
Qed.

(** ** Sizes *)
Lemma compact_one n : n < 128 -> length (compact n) = 1%nat.
Proof. intro H. unfold compact. apply N.ltb_lt in H. rewrite H. reflexivity. Qed.
Lemma compact_some n : (1 <= length (compact n))%nat.
Proof. unfold compact. destruct (n <? 128); [cbn; lia|]. destruct (n <? 16384); cbn; lia. Qed.
Lemma chunks_length (f : pubkey -> list N) n ks : (forall k, length (f k) = n) -> length (flat_map f ks) = (n * length ks)%nat.
Proof. intro H. induction ks as [|a r IH]; cbn; [lia|]. rewrite app_length, H, IH. lia. Qed.
Lemma to_le_length n x : length (to_le n x) = n.
Proof. revert x. induction n as [|n IH]; intro x; cbn; [reflexivity|]. now rewrite IH. Qed.
(** Bytes of an instruction. *)
Definition ix_size (ix : wire_ix) : nat :=
  (1 + length (compact (N.of_nat (length (wi_accounts ix)))) + length (wi_accounts ix) + length (compact (N.of_nat (length (wi_data ix)))) + length (wi_data ix))%nat.
Lemma w_ix_length ks ix : length (w_ix ks ix) = ix_size ix.
Proof. unfold w_ix, w_list, ix_size. cbn [length]. rewrite !app_length, !map_length. lia. Qed.
Lemma w_ixs_length ks ixs : length (flat_map (w_ix ks) ixs) = list_sum (map ix_size ixs).
Proof. induction ixs as [|a r IH]; [reflexivity|]. cbn [flat_map map list_sum fold_right]. rewrite app_length, w_ix_length, IH. reflexivity. Qed.
Lemma message_length c v0 payer ixs h : lawful_encoding c ->
  length (w_message c v0 payer ixs h) =
    ((if v0 then 2 else 0) + 3 + length (compact (N.of_nat (length (w_keys c payer ixs)))) + 32 * length (w_keys c payer ixs) + 32 +
     length (compact (N.of_nat (length ixs))) + list_sum (map ix_size ixs))%nat.
Proof.
  intros [L _]. unfold w_message. cbv zeta. rewrite !app_length, (chunks_length (en_key c) 32 _ L), to_le_length, w_ixs_length. unfold w_header. cbn [length]. destruct v0; cbn [length]; lia.
Qed.
Lemma size_eq c v0 payer ixs : lawful_encoding c ->
  w_size c v0 payer ixs =
    N.of_nat (length (compact (N.of_nat (w_signatures c payer ixs))) + 64 * w_signatures c payer ixs + (if v0 then 2 else 0) + 3 +
      length (compact (N.of_nat (length (w_keys c payer ixs)))) + 32 * length (w_keys c payer ixs) + 32 + length (compact (N.of_nat (length ixs))) + list_sum (map ix_size ixs)).
Proof. intro L. unfold w_size. cbv zeta. rewrite (message_length c v0 payer ixs 0 L). lia. Qed.
(** At most [a] signatures and [b] accounts. *)
Lemma size_at_most c v0 payer ixs a b : lawful_encoding c -> (w_signatures c payer ixs <= a)%nat -> (length (w_keys c payer ixs) <= b)%nat -> (a < 128)%nat -> (b < 128)%nat -> (length ixs < 128)%nat ->
  w_size c v0 payer ixs <= N.of_nat (40 + 64 * a + 32 * b + list_sum (map ix_size ixs)).
Proof.
  intros L A B La Lb Li. rewrite (size_eq c v0 payer ixs L), !compact_one by lia. destruct v0; lia.
Qed.
Lemma size_at_least c v0 payer ixs a b : lawful_encoding c -> (a <= w_signatures c payer ixs)%nat -> (b <= length (w_keys c payer ixs))%nat ->
  N.of_nat (38 + 64 * a + 32 * b + list_sum (map ix_size ixs)) <= w_size c v0 payer ixs.
Proof.
  intros L A B. rewrite (size_eq c v0 payer ixs L).
  pose proof (compact_some (N.of_nat (w_signatures c payer ixs))) as C1. pose proof (compact_some (N.of_nat (length (w_keys c payer ixs)))) as C2. pose proof (compact_some (N.of_nat (length ixs))) as C3. destruct v0; lia.
Qed.

(** ** C72: what fits *)
(** The members of a multisig who sign along. *)
Definition cosigners (c : command) : list pubkey :=
  match c with CmdWrap x => map sg_key (wa_multisig x) | CmdUnwrap x => map sg_key (ua_multisig x) | _ => [] end.

Lemma fits_by c v0 payer ixs ss ks z : lawful_encoding c ->
  (forall k, w_signs payer ixs k = true -> In k ss) -> incl (payer :: w_all ixs) ks -> (length ixs < 128)%nat -> (list_sum (map ix_size ixs) <= z)%nat ->
  (length ss < 128)%nat -> (length ks < 128)%nat -> (40 + 64 * length ss + 32 * length ks + z <= 1232)%nat -> w_size c v0 payer ixs <= packet.
Proof.
  intros L S K Li Z Ls Lk B. unfold packet.
  pose proof (size_at_most c v0 payer ixs (length ss) (length ks) L (signatures_at_most c payer ixs ss L S) (keys_at_most c payer ixs ks L K) Ls Lk Li) as H. lia.
Qed.
Lemma signs_one payer ix k : w_signs payer [ix] k = true <-> k = payer \/ is_sig (wi_accounts ix) k = true.
Proof. unfold w_signs. cbn [existsb]. rewrite orb_false_r, orb_true_iff, pk_eqb_eq. reflexivity. Qed.
Lemma is_sig_in ms k : is_sig ms k = true <-> exists m, In m ms /\ i_key m = k /\ i_signer m = true.
Proof.
  unfold is_sig. rewrite existsb_exists. split; intros (m & Hm & H); exists m.
  - apply andb_true_iff in H. destruct H as [A B]. apply pk_eqb_eq in A. auto.
  - destruct H as [A B]. split; [exact Hm|]. rewrite A, B, pk_eqb_refl. reflexivity.
Qed.
Lemma all_one ix : w_all [ix] = map i_key (wi_accounts ix) ++ [wi_program ix].
Proof. unfold w_all. cbn [flat_map]. apply app_nil_r. Qed.
(** An instruction in which nobody but the payer signs. *)
Lemma plain_fits c v0 payer prog accounts data : lawful_encoding c ->
  (forall m, In m accounts -> i_signer m = false) -> (length accounts <= 9)%nat -> (length data <= 9)%nat -> w_size c v0 payer [mkWireIx prog accounts data] <= packet.
Proof.
  intros L S La Ld. apply (fits_by c v0 payer _ [payer] (payer :: prog :: map i_key accounts) 21 L).
  - intros k H. apply signs_one in H. destruct H as [->|H]; [left; reflexivity|]. apply is_sig_in in H. destruct H as (m & Hm & _ & X). rewrite (S m Hm) in X. discriminate X.
  - rewrite all_one. cbn [wi_accounts wi_program]. intros k [<-|H]; [left; reflexivity|]. apply in_app_or in H. right. destruct H as [H|[<-|[]]]; [right; exact H|left; reflexivity].
  - cbn. lia.
  - cbn [map list_sum fold_right]. unfold ix_size. cbn [wi_accounts wi_data]. rewrite !compact_one by lia. lia.
  - cbn. lia.
  - cbn [length]. rewrite map_length. lia.
  - cbn [length]. rewrite map_length. lia.
Qed.
(** A wrap or an unwrap: nine accounts, and the members. *)
Lemma acting_fits c v0 payer prog accounts data ta members : lawful_encoding c ->
  (forall m, In m accounts -> i_signer m = true -> In (i_key m) (payer :: ta :: members)) ->
  incl (map i_key (skipn 9 accounts)) members -> In ta (map i_key (firstn 9 accounts)) -> length accounts = (9 + length members)%nat -> (length data <= 9)%nat -> (length members <= 7)%nat ->
  w_size c v0 payer [mkWireIx prog accounts data] <= packet.
Proof.
  intros L S K T La Ld Lm.
  assert (L9 : length (firstn 9 accounts) = 9%nat) by (rewrite firstn_length; lia).
  apply (fits_by c v0 payer _ (payer :: ta :: members) (payer :: prog :: map i_key (firstn 9 accounts) ++ members) (21 + length members) L).
  - intros k H. apply signs_one in H. destruct H as [->|H]; [left; reflexivity|]. apply is_sig_in in H. destruct H as (m & Hm & <- & X). exact (S m Hm X).
  - rewrite all_one. cbn [wi_accounts wi_program]. intros k [<-|H]; [left; reflexivity|]. right. apply in_app_or in H. destruct H as [H|[<-|[]]]; [|left; reflexivity]. right.
    rewrite <- (firstn_skipn 9 accounts), map_app in H. apply in_or_app. apply in_app_or in H. destruct H as [H|H]; [left; exact H|right; exact (K k H)].
  - cbn. lia.
  - cbn [map list_sum fold_right]. unfold ix_size. cbn [wi_accounts wi_data]. rewrite !compact_one by lia. lia.
  - cbn [length]. lia.
  - cbn [length]. rewrite app_length, map_length, L9. lia.
  - cbn [length]. rewrite app_length, map_length, L9. lia.
Qed.
Lemma build_wrap_fits c v0 payer r w a utp wtp s u esc ta members n e : lawful_encoding c -> (length members <= 7)%nat ->
  w_size c v0 payer [wire_of e (TxTokenWrap (build_wrap tw_id r w a utp wtp s u esc ta members n))] <= packet.
Proof.
  intros L Lm. unfold wire_of, build_wrap. cbn [tx_prog tx_metas tx_data]. apply (acting_fits c v0 payer _ _ _ ta members L).
  - intros m Hm X. apply in_app_or in Hm. destruct Hm as [Hm|Hm].
    + repeat (destruct Hm as [<-|Hm]; [try discriminate X; right; left; reflexivity|]). destruct Hm.
    + apply in_map_iff in Hm. destruct Hm as (k & <- & Hk). right. right. exact Hk.
  - change (skipn 9 _) with (map (fun k => meta_r k true) members). rewrite map_map. cbn [meta_r i_key]. rewrite map_id. apply incl_refl.
  - cbn. do 8 right. left. reflexivity.
  - rewrite app_length, map_length. reflexivity.
  - cbn [pack length]. rewrite to_le_length. lia.
  - exact Lm.
Qed.
Lemma build_unwrap_fits c v0 payer esc r a u wtp utp s w ta members n e : lawful_encoding c -> (length members <= 7)%nat ->
  w_size c v0 payer [wire_of e (TxTokenWrap (build_unwrap tw_id esc r a u wtp utp s w ta members n))] <= packet.
Proof.
  intros L Lm. unfold wire_of, build_unwrap. cbn [tx_prog tx_metas tx_data]. apply (acting_fits c v0 payer _ _ _ ta members L).
  - intros m Hm X. apply in_app_or in Hm. destruct Hm as [Hm|Hm].
    + repeat (destruct Hm as [<-|Hm]; [try discriminate X; right; left; reflexivity|]). destruct Hm.
    + apply in_map_iff in Hm. destruct Hm as (k & <- & Hk). right. right. exact Hk.
  - change (skipn 9 _) with (map (fun k => meta_r k true) members). rewrite map_map. cbn [meta_r i_key]. rewrite map_id. apply incl_refl.
  - cbn. do 8 right. left. reflexivity.
  - rewrite app_length, map_length. reflexivity.
  - cbn [pack length]. rewrite to_le_length. lia.
  - exact Lm.
Qed.
(** Up to two payments, and the creation of a mint. *)
Lemma create_fits c v0 payer w b u sys wtp data n1 n2 some1 some2 e : lawful_encoding c -> length data = 2%nat ->
  w_size c v0 payer (map (wire_of e) ((if some1 : bool then [TxTransfer payer w n1] else []) ++ (if some2 : bool then [TxTransfer payer b n2] else []) ++
    [TxTokenWrap (mkTwIx tw_id [meta_w w false; meta_w b false; meta_r u false; meta_r sys false; meta_r wtp false] data)])) <= packet.
Proof.
  intros L Ld. apply (fits_by c v0 payer _ [payer] [payer; w; b; u; sys; wtp; tw_id; system_id] 44 L).
  - intros k H. unfold w_signs in H. apply orb_true_iff in H. destruct H as [H|H]; [left; symmetry; apply pk_eqb_eq; exact H|]. left. symmetry.
    destruct some1, some2; cbn in H; rewrite ?andb_false_r, ?andb_true_r, ?orb_false_r in H; repeat (apply orb_true_iff in H; destruct H as [H|H]); try discriminate H; try (apply pk_eqb_eq in H; symmetry in H; exact H).
  - intros k H. destruct some1, some2; cbn in H |- *; tauto.
  - destruct some1, some2; cbn; lia.
  - assert (X : ix_size (wire_of e (TxTokenWrap (mkTwIx tw_id [meta_w w false; meta_w b false; meta_r u false; meta_r sys false; meta_r wtp false] data))) = 10%nat).
    { unfold ix_size. cbn [wire_of wi_accounts wi_data tx_metas tx_data length]. rewrite Ld. reflexivity. }
    assert (Y : forall k n, ix_size (wire_of e (TxTransfer payer k n)) = 17%nat).
    { intros k n. unfold ix_size. cbn [wire_of wi_accounts wi_data ix_accounts length app]. rewrite to_le_length. reflexivity. }
    destruct some1, some2; cbn [app map list_sum fold_right]; rewrite X, ?Y; lia.
  - cbn. lia.
  - cbn. lia.
  - cbn. lia.
Qed.
Lemma associated_fits c v0 payer wallet mnt p e : lawful_encoding c -> w_size c v0 payer [wire_of e (TxAssociated payer wallet mnt p)] <= packet.
Proof.
  intro L. unfold wire_of, ix_accounts. generalize (ata_of e wallet mnt p) as k0. intro k0.
  apply (fits_by c v0 payer _ [payer] [payer; k0; wallet; mnt; system_id; p; ata_id] 10 L).
  - intros k H. apply signs_one in H. destruct H as [->|H]; [left; reflexivity|]. apply is_sig_in in H. destruct H as (m & Hm & <- & X). cbn in Hm.
    repeat (destruct Hm as [<-|Hm]; [try discriminate X; left; reflexivity|]). destruct Hm.
  - intros k H. cbn in H |- *. tauto.
  - cbn. lia.
  - cbn. lia.
  - cbn. lia.
  - cbn. lia.
  - cbn. lia.
Qed.
Lemma cli_wrap_tx e payer x l t : cli_wrap e payer x l = Ok t -> exists r w a utp u esc ta,
  tr_payer t = payer /\ tr_ixs t = [TxTokenWrap (build_wrap tw_id r w a utp (wa_wtp x) (wa_source x) u esc ta (map sg_key (wa_multisig x)) (wa_amount x))].
Proof.
  unfold cli_wrap. intro H.
  apply bind_ok in H. destruct H as (? & _ & H). apply bind_ok in H. destruct H as (? & _ & H). apply bind_ok in H. destruct H as (u & _ & H). apply bind_ok in H. destruct H as (w & _ & H).
  apply bind_ok in H. destruct H as (a & _ & H). apply bind_ok in H. destruct H as (r & _ & H). cbv zeta in H. apply bind_ok in H. destruct H as (utp & _ & H). apply bind_ok in H. destruct H as (esc & _ & H).
  unfold partial_sign in H. apply bind_ok in H. destruct H as ([] & _ & H). injection H as <-. exists r, w, a, utp, u, esc, (sg_key (match wa_authority x with Some s => s | None => mkSigner payer true end)). split; reflexivity.
Qed.
Lemma cli_unwrap_tx e payer x l t : cli_unwrap e payer x l = Ok t -> exists esc a u wtp utp w ta,
  tr_payer t = payer /\ tr_ixs t = [TxTokenWrap (build_unwrap tw_id esc (ua_recipient x) a u wtp utp (ua_source x) w ta (map sg_key (ua_multisig x)) (ua_amount x))].
Proof.
  unfold cli_unwrap. intro H.
  apply bind_ok in H. destruct H as (? & _ & H). apply bind_ok in H. destruct H as (? & _ & H). apply bind_ok in H. destruct H as (? & _ & H). apply bind_ok in H. destruct H as (wtp & _ & H).
  apply bind_ok in H. destruct H as (? & _ & H). apply bind_ok in H. destruct H as (u & _ & H). apply bind_ok in H. destruct H as (? & _ & H). apply bind_ok in H. destruct H as (utp & _ & H).
  apply bind_ok in H. destruct H as (w & _ & H). apply bind_ok in H. destruct H as (a & _ & H). apply bind_ok in H. destruct H as (esc & _ & H). cbv zeta in H.
  unfold partial_sign in H. apply bind_ok in H. destruct H as ([] & _ & H). injection H as <-. exists esc, a, u, wtp, utp, w, (sg_key (match ua_authority x with Some s => s | None => mkSigner payer true end)). split; reflexivity.
Qed.

(** C72: every transaction of the command line client fits into a packet, if at most seven members of a multisig sign along. *)
Theorem C72_fits : forall c e fee payer cmd l t,
  lawful_encoding c -> transaction_of e payer cmd l = Ok (Some t) -> (length (cosigners cmd) <= 7)%nat ->
  transaction_size c false e t <= packet /\ deliver c false e fee t l = send e fee t l.
Proof.
  intros c e fee payer cmd l t L H Lm.
  assert (F : transaction_size c false e t <= packet).
  { unfold transaction_size. destruct cmd as [u wtp i|u wtp i|x|x|u d wtp|u s p|u s p]; cbn [transaction_of cosigners] in H, Lm.
    - destruct (cli_create_mint e payer u wtp i l) as [t'|] eqn:E; [|discriminate H]. cbn [some] in H. injection H as ->.
      unfold cli_create_mint in E. apply bind_ok in E. destruct E as (? & _ & E). apply bind_ok in E. destruct E as (w & _ & E). apply bind_ok in E. destruct E as (b & _ & E). cbv zeta in E. injection E as <-.
      cbn [tr_payer tr_ixs]. unfold fund, build_create_mint. apply create_fits; [exact L|]. cbn [pack]. destruct i; reflexivity.
    - unfold cli_create_escrow in H. apply bind_ok in H. destruct H as (? & _ & H). apply bind_ok in H. destruct H as (? & _ & H). apply bind_ok in H. destruct H as (utp & _ & H). apply bind_ok in H. destruct H as (w & _ & H).
      apply bind_ok in H. destruct H as (a & _ & H). apply bind_ok in H. destruct H as (esc & _ & H). destruct (get_account l esc); [destruct i; discriminate H|]. injection H as <-. apply associated_fits. exact L.
    - destruct (cli_wrap e payer x l) as [t'|] eqn:E; [|discriminate H]. cbn [some] in H. injection H as ->. destruct (cli_wrap_tx _ _ _ _ _ E) as (r & w & a & utp & u & esc & ta & -> & ->). apply build_wrap_fits; assumption.
    - destruct (cli_unwrap e payer x l) as [t'|] eqn:E; [|discriminate H]. cbn [some] in H. injection H as ->. destruct (cli_unwrap_tx _ _ _ _ _ E) as (esc & a & u & wtp & utp & w & ta & -> & ->). apply build_unwrap_fits; assumption.
    - destruct (cli_close_stuck_escrow e payer u d wtp l) as [t'|] eqn:E; [|discriminate H]. cbn [some] in H. injection H as ->. unfold cli_close_stuck_escrow in E.
      apply bind_ok in E. destruct E as (? & _ & E). apply bind_ok in E. destruct E as (? & _ & E). apply bind_ok in E. destruct E as (? & _ & E). apply bind_ok in E. destruct E as (w & _ & E).
      apply bind_ok in E. destruct E as (a & _ & E). apply bind_ok in E. destruct E as (esc & _ & E). injection E as <-. cbn [tr_payer tr_ixs map]. apply plain_fits; [exact L| | |].
      + cbn. intros m Hm. repeat (destruct Hm as [<-|Hm]; [reflexivity|]). destruct Hm.
      + cbn. lia.
      + cbn. lia.
    - destruct (cli_sync_to_token_2022 e payer u s p l) as [t'|] eqn:E; [|discriminate H]. cbn [some] in H. injection H as ->. unfold cli_sync_to_token_2022 in E.
      apply bind_ok in E. destruct E as (w & _ & E). apply bind_ok in E. destruct E as (a & _ & E). apply bind_ok in E. destruct E as (src & _ & E). injection E as <-. cbn [tr_payer tr_ixs map]. apply plain_fits; [exact L| | |].
      + destruct src, p; cbn; intros m Hm; repeat (destruct Hm as [<-|Hm]; [reflexivity|]); destruct Hm.
      + destruct src, p; cbn; lia.
      + cbn. lia.
    - destruct (cli_sync_to_spl_token e payer u s p l) as [t'|] eqn:E; [|discriminate H]. cbn [some] in H. injection H as ->. unfold cli_sync_to_spl_token in E.
      apply bind_ok in E. destruct E as (w & _ & E). apply bind_ok in E. destruct E as (a & _ & E). apply bind_ok in E. destruct E as (md & _ & E). injection E as <-. cbn [tr_payer tr_ixs map]. apply plain_fits; [exact L| | |].
      + destruct s, p; cbn; intros m Hm; repeat (destruct Hm as [<-|Hm]; [reflexivity|]); destruct Hm.
      + destruct s, p; cbn; lia.
      + cbn. lia. }
  split; [exact F|]. unfold deliver. apply N.leb_le in F. rewrite F. reflexivity.
Qed.
Print Assumptions C72_fits.

(** ** C72: exactly how many members can sign along *)
(** The accounts of a wrap or an unwrap are different ones; the payer may be one of the members, and the two token programs may
    be the same. *)
Definition parties_differ (payer : pubkey) (members : list pubkey) (utp wtp : pubkey) (others : list pubkey) : Prop :=
  NoDup (members ++ wtp :: tw_id :: others) /\ ~ In payer (wtp :: tw_id :: others) /\
  (utp = wtp \/ ~ In utp (payer :: members ++ wtp :: tw_id :: others)).
Definition most_cosigners (payer : pubkey) (members : list pubkey) (utp wtp : pubkey) : nat :=
  (7 + (if in_dec pk_dec payer members then 1 else 0) + (if pk_dec utp wtp then 1 else 0))%nat.

(** Bytes: 97 per member (a signature, an address, a place in the account list) and 475 for the rest. *)
Definition cosigned_size (v0 : bool) (payer : pubkey) (members : list pubkey) (utp wtp : pubkey) : N :=
  97 * N.of_nat (length members) + 475 + (if v0 then 2 else 0) - (if in_dec pk_dec payer members then 96 else 0) - (if pk_dec utp wtp then 32 else 0).

Lemma nodup_left {A} (x y : list A) : NoDup (x ++ y) -> NoDup x.
Proof.
  induction x as [|a q IH]; intro H; [constructor|]. inversion H as [|? ? N1 N2]; subst. constructor; [|exact (IH N2)]. intro X. apply N1. apply in_or_app. left. exact X.
Qed.
Lemma limit_aux c v0 payer prog accounts data members utp wtp others : lawful_encoding c -> prog = tw_id -> members <> [] ->
  (forall k, is_sig accounts k = true <-> In k members) ->
  (forall k, In k (map i_key accounts) <-> In k members \/ In k others \/ k = utp \/ k = wtp) ->
  length others = 7%nat -> length accounts = (9 + length members)%nat -> length data = 9%nat -> parties_differ payer members utp wtp others ->
  (w_size c v0 payer [mkWireIx prog accounts data] <= packet <-> (length members <= most_cosigners payer members utp wtp)%nat) /\
  ((length members <= 100)%nat -> w_size c v0 payer [mkWireIx prog accounts data] = cosigned_size v0 payer members utp wtp).
Proof.
  intros L -> Ne Sg Ks Lo La Ld (Nd & Np & Nu).
  set (ss := if in_dec pk_dec payer members then members else payer :: members).
  set (ks := (if pk_dec utp wtp then [] else [utp]) ++ (if in_dec pk_dec payer members then [] else [payer]) ++ members ++ wtp :: tw_id :: others).
  assert (S1 : forall k, w_signs payer [mkWireIx tw_id accounts data] k = true <-> In k ss).
  { intro k. rewrite signs_one. cbn [wi_accounts]. rewrite Sg. unfold ss. destruct (in_dec pk_dec payer members) as [I|I]; cbn [In]; split; intro H.
    - destruct H as [->|H]; assumption.
    - right; exact H.
    - destruct H as [->|H]; [left; reflexivity|right; exact H].
    - destruct H as [<-|H]; [left; reflexivity|right; exact H]. }
  assert (K1 : forall k, In k (payer :: w_all [mkWireIx tw_id accounts data]) <-> In k ks).
  { intro k. rewrite all_one. cbn [wi_accounts wi_program In]. rewrite in_app_iff, Ks. unfold ks. cbn [In]. rewrite !in_app_iff. cbn [In].
    destruct (pk_dec utp wtp) as [E|E]; destruct (in_dec pk_dec payer members) as [I|I]; cbn [In]; split; intro H; intuition (subst; tauto). }
  assert (Ns : NoDup ss).
  { unfold ss. assert (Nm : NoDup members) by (apply (nodup_left members (wtp :: tw_id :: others)); exact Nd). destruct (in_dec pk_dec payer members) as [I|I]; [exact Nm|constructor; assumption]. }
  assert (Nk : NoDup ks).
  { unfold ks. assert (B : NoDup ((if in_dec pk_dec payer members then [] else [payer]) ++ members ++ wtp :: tw_id :: others)).
    { destruct (in_dec pk_dec payer members) as [I|I]; [exact Nd|]. cbn [app]. constructor; [|exact Nd]. intro X. apply in_app_or in X. destruct X as [X|X]; [exact (I X)|exact (Np X)]. }
    destruct (pk_dec utp wtp) as [E|E]; [exact B|]. cbn [app]. constructor; [|exact B]. destruct Nu as [Nu|Nu]; [contradiction|]. intro X. apply Nu. apply in_app_or in X.
    destruct X as [X|X]; [destruct (in_dec pk_dec payer members); [destruct X|destruct X as [X|[]]; left; exact X]|right; exact X]. }
  assert (Ls : length ss = (length members + (if in_dec pk_dec payer members then 0 else 1))%nat) by (unfold ss; destruct (in_dec pk_dec payer members); cbn [length]; lia).
  assert (Lk : length ks = (length members + 9 + (if in_dec pk_dec payer members then 0 else 1) + (if pk_dec utp wtp then 0 else 1))%nat).
  { unfold ks. rewrite !app_length. cbn [length]. rewrite Lo. destruct (in_dec pk_dec payer members), (pk_dec utp wtp); cbn [length]; lia. }
  assert (A1 := signatures_at_most c payer _ ss L (fun k H => proj1 (S1 k) H)).
  assert (A2 := signatures_at_least c payer _ ss L Ns (fun k H => proj2 (S1 k) H)).
  assert (B1 := keys_at_most c payer _ ks L (fun k H => proj1 (K1 k) H)).
  assert (B2 := keys_at_least c payer _ ks L Nk (fun k H => proj2 (K1 k) H)).
  assert (Z : list_sum (map ix_size [mkWireIx tw_id accounts data]) = (1 + length (compact (N.of_nat (9 + length members))) + (9 + length members) + 1 + 9)%nat).
  { cbn [map list_sum fold_right]. unfold ix_size. cbn [wi_accounts wi_data]. rewrite Ld, La. rewrite (compact_one (N.of_nat 9)) by (vm_compute; reflexivity). lia. }
  split; [|intro M; unfold cosigned_size;
    assert (X1 : (length ss < 128)%nat) by (rewrite Ls; destruct (in_dec pk_dec payer members); lia);
    assert (X2 : (length ks < 128)%nat) by (rewrite Lk; destruct (in_dec pk_dec payer members), (pk_dec utp wtp); lia);
    rewrite (size_eq c v0 payer _ L), Z, !compact_one by (cbn [length]; lia); replace (w_signatures c payer [mkWireIx tw_id accounts data]) with (length ss) by lia;
    replace (length (w_keys c payer [mkWireIx tw_id accounts data])) with (length ks) by lia; rewrite Ls, Lk; destruct v0, (in_dec pk_dec payer members), (pk_dec utp wtp); cbn [length]; lia].
  unfold most_cosigners, packet. split; intro H.
  - pose proof (size_at_least c v0 payer [mkWireIx tw_id accounts data] (length ss) (length ks) L A2 B2) as X. rewrite Z, Ls, Lk in X.
    pose proof (compact_some (N.of_nat (9 + length members))) as Y. destruct (in_dec pk_dec payer members), (pk_dec utp wtp); lia.
  - assert (M : (length members <= 9)%nat) by (destruct (in_dec pk_dec payer members), (pk_dec utp wtp); lia).
    pose proof (size_at_most c v0 payer [mkWireIx tw_id accounts data] (length ss) (length ks) L A1 B1) as X. rewrite Z, compact_one in X by lia.
    assert (X1 : (length ss < 128)%nat) by (rewrite Ls; destruct (in_dec pk_dec payer members); lia).
    assert (X2 : (length ks < 128)%nat) by (rewrite Lk; destruct (in_dec pk_dec payer members), (pk_dec utp wtp); lia).
    specialize (X X1 X2 ltac:(cbn; lia)). rewrite Ls, Lk in X. destruct (in_dec pk_dec payer members), (pk_dec utp wtp); lia.
Qed.
Lemma members_sig (nine : list info) members : members <> [] -> (forall m, In m nine -> i_signer m = false) ->
  forall k, is_sig (nine ++ map (fun k => meta_r k true) members) k = true <-> In k members.
Proof.
  intros Ne N9 k. rewrite is_sig_in. split.
  - intros (m & Hm & <- & X). apply in_app_or in Hm. destruct Hm as [Hm|Hm]; [rewrite (N9 m Hm) in X; discriminate X|]. apply in_map_iff in Hm. destruct Hm as (q & <- & Hq). exact Hq.
  - intro H. exists (meta_r k true). split; [apply in_or_app; right; apply in_map_iff; exists k; split; [reflexivity|exact H]|split; reflexivity].
Qed.
Lemma members_keys (nine : list info) members k : In k (map i_key (nine ++ map (fun k => meta_r k true) members)) <-> In k (map i_key nine) \/ In k members.
Proof. rewrite map_app, in_app_iff, map_map. cbn [meta_r i_key]. rewrite map_id. reflexivity. Qed.

(** C72: if members of a multisig act and no account plays two parts, the transaction fits if and only if there are at most seven of
    them — one more if the payer is among them, one more if wrapped and unwrapped token share their program.  And its size is known
    to the byte. *)
Theorem C72_limit : forall c v0 e payer sigs r w a utp wtp s u esc owner members n,
  lawful_encoding c -> members <> [] -> parties_differ payer members utp wtp [r; w; a; s; u; esc; owner] ->
  let wrap := mkTx payer [TxTokenWrap (build_wrap tw_id r w a utp wtp s u esc owner members n)] sigs in
  let unwrap := mkTx payer [TxTokenWrap (build_unwrap tw_id esc r a u wtp utp s w owner members n)] sigs in
  (transaction_size c v0 e wrap <= packet <-> (length members <= most_cosigners payer members utp wtp)%nat) /\
  (transaction_size c v0 e unwrap <= packet <-> (length members <= most_cosigners payer members utp wtp)%nat) /\
  ((length members <= 100)%nat ->
   transaction_size c v0 e wrap = cosigned_size v0 payer members utp wtp /\ transaction_size c v0 e unwrap = cosigned_size v0 payer members utp wtp).
Proof.
  intros c v0 e payer sigs r w a utp wtp s u esc owner members n L Ne P wrap unwrap.
  assert (Nn : is_nil members = false) by (destruct members; [contradiction Ne; reflexivity|reflexivity]).
  assert (A : (transaction_size c v0 e wrap <= packet <-> (length members <= most_cosigners payer members utp wtp)%nat) /\
    ((length members <= 100)%nat -> transaction_size c v0 e wrap = cosigned_size v0 payer members utp wtp)).
  { unfold transaction_size, wrap. cbn [tr_payer tr_ixs map]. unfold wire_of, build_wrap; cbn [tx_prog tx_metas tx_data]; rewrite Nn; apply (limit_aux c v0 payer tw_id _ _ members utp wtp [r; w; a; s; u; esc; owner] L eq_refl Ne).
    - apply (members_sig _ _ Ne). intros m Hm. repeat (destruct Hm as [<-|Hm]; [reflexivity|]). destruct Hm.
    - intro k. rewrite members_keys. cbn. split; intro H; intuition.
    - reflexivity.
    - rewrite app_length, map_length. reflexivity.
    - cbn [pack length]. rewrite to_le_length. reflexivity.
    - exact P. }
  assert (B : (transaction_size c v0 e unwrap <= packet <-> (length members <= most_cosigners payer members utp wtp)%nat) /\
    ((length members <= 100)%nat -> transaction_size c v0 e unwrap = cosigned_size v0 payer members utp wtp)).
  { unfold transaction_size, unwrap. cbn [tr_payer tr_ixs map]. unfold wire_of, build_unwrap; cbn [tx_prog tx_metas tx_data]; rewrite Nn; apply (limit_aux c v0 payer tw_id _ _ members utp wtp [r; w; a; s; u; esc; owner] L eq_refl Ne).
    - apply (members_sig _ _ Ne). intros m Hm. repeat (destruct Hm as [<-|Hm]; [reflexivity|]). destruct Hm.
    - intro k. rewrite members_keys. cbn. split; intro H; intuition.
    - reflexivity.
    - rewrite app_length, map_length. reflexivity.
    - cbn [pack length]. rewrite to_le_length. reflexivity.
    - exact P. }
  destruct A as [A1 A2]. destruct B as [B1 B2]. split; [exact A1|]. split; [exact B1|]. intro M. split; [exact (A2 M)|exact (B2 M)].
Qed.
Print Assumptions C72_limit.

(** C72: what a user of the command line client might expect — that a multisig of any size the token programs allow (up to eleven
    signers) can wrap and unwrap — is false: with more members than that, what the client sends is always refused and nothing
    changes; ten are always too many. *)
Theorem C72_large_multisig_refuted : forall c e fee payer l t,
  lawful_encoding c ->
  (forall x, transaction_of e payer (CmdWrap x) l = Ok (Some t) ->
     exists r w a utp u esc owner, let members := map sg_key (wa_multisig x) in
       tr_ixs t = [TxTokenWrap (build_wrap tw_id r w a utp (wa_wtp x) (wa_source x) u esc owner members (wa_amount x))] /\
       (parties_differ payer members utp (wa_wtp x) [r; w; a; wa_source x; u; esc; owner] ->
        (most_cosigners payer members utp (wa_wtp x) < length members \/ 10 <= length members)%nat -> deliver c false e fee t l = (l, Err EInvalidArgument))) /\
  (forall x, transaction_of e payer (CmdUnwrap x) l = Ok (Some t) ->
     exists esc a u wtp utp w owner, let members := map sg_key (ua_multisig x) in
       tr_ixs t = [TxTokenWrap (build_unwrap tw_id esc (ua_recipient x) a u wtp utp (ua_source x) w owner members (ua_amount x))] /\
       (parties_differ payer members utp wtp [ua_recipient x; w; a; ua_source x; u; esc; owner] ->
        (most_cosigners payer members utp wtp < length members \/ 10 <= length members)%nat -> deliver c false e fee t l = (l, Err EInvalidArgument))).
Proof.
  intros c e fee payer l t L.
  assert (M : forall members utp wtp, (most_cosigners payer members utp wtp < length members \/ 10 <= length members)%nat -> members <> [] /\ ~ (length members <= most_cosigners payer members utp wtp)%nat).
  { intros members utp wtp H. split; [intro X; subst members; cbn in H; lia|]. unfold most_cosigners in *. destruct (in_dec pk_dec payer members), (pk_dec utp wtp); lia. }
  split; intros x H; cbn [transaction_of] in H.
  - destruct (cli_wrap e payer x l) as [t'|] eqn:E; [|discriminate H]. cbn [some] in H. injection H as ->. destruct (cli_wrap_tx _ _ _ _ _ E) as (r & w & a & utp & u & esc & ta & Pt & It).
    exists r, w, a, utp, u, esc, ta. cbv zeta. split; [exact It|]. intros P G. apply M in G. destruct G as [Ne G].
    destruct (C72_limit c false e payer (tr_signed t) r w a utp (wa_wtp x) (wa_source x) u esc ta _ (wa_amount x) L Ne P) as [X _].
    unfold deliver. destruct (transaction_size c false e t <=? packet) eqn:F; [|reflexivity]. exfalso. apply G, X. apply N.leb_le in F. unfold transaction_size in *. rewrite Pt, It in F. exact F.
  - destruct (cli_unwrap e payer x l) as [t'|] eqn:E; [|discriminate H]. cbn [some] in H. injection H as ->. destruct (cli_unwrap_tx _ _ _ _ _ E) as (esc & a & u & wtp & utp & w & ta & Pt & It).
    exists esc, a, u, wtp, utp, w, ta. cbv zeta. split; [exact It|]. intros P G. apply M in G. destruct G as [Ne G].
    destruct (C72_limit c false e payer (tr_signed t) (ua_recipient x) w a utp wtp (ua_source x) u esc ta _ (ua_amount x) L Ne P) as [_ X].
    unfold deliver. destruct (transaction_size c false e t <=? packet) eqn:F; [|reflexivity]. exfalso. apply G, X. apply N.leb_le in F. unfold transaction_size in *. rewrite Pt, It in F. exact F.
Qed.
Print Assumptions C72_large_multisig_refuted.

(** ** C72: the JavaScript client *)
Lemma js_wrap_fits c v0 e payer r w a utp wtp s u esc ta amount multi i : lawful_encoding c -> (length multi <= 7)%nat ->
  js_wrap tw_id r w a utp wtp s u esc ta amount multi = Ok i ->
  w_size c v0 payer [wire_of e (TxTokenWrap i)] <= packet /\ w_size c v0 payer [wire_of e (TxTokenWrap (mkTwIx (tx_prog i) (raised e payer [TxTokenWrap i] (tx_metas i)) (tx_data i)))] <= packet.
Proof.
  intros L Lm H. unfold js_wrap in H. apply bind_ok in H. destruct H as (d & Hd & H). unfold js_u64 in Hd. apply bind_ok in Hd. destruct Hd as ([] & _ & Hd). injection Hd as <-.
  remember ([js_meta tw_id (some_address r) true; js_meta tw_id (some_address w) true; js_meta tw_id (some_address a) false;
      js_meta tw_id (some_address utp) false; js_meta tw_id (some_address wtp) false; js_meta tw_id (some_address s) true;
      js_meta tw_id (some_address u) false; js_meta tw_id (some_address esc) true; js_meta tw_id (Some ta) false] ++
     map (fun x => mkInfo (sg_key x) true false) multi) as ms eqn:Em. injection H as <-.
  assert (Sg : forall m, In m ms -> i_signer m = true -> In (i_key m) (payer :: js_address ta :: map sg_key multi)).
  { intros m Hm X. rewrite Em in Hm. apply in_app_or in Hm. destruct Hm as [Hm|Hm].
    - repeat (destruct Hm as [<-|Hm]; [first [discriminate X | right; left; destruct ta; [reflexivity|discriminate X]]|]). destruct Hm.
    - apply in_map_iff in Hm. destruct Hm as (k & <- & Hk). right. right. cbn [i_key]. apply in_map. exact Hk. }
  assert (Sk : incl (map i_key (skipn 9 ms)) (map sg_key multi)).
  { rewrite Em. change (skipn 9 _) with (map (fun x => mkInfo (sg_key x) true false) multi). rewrite map_map. apply incl_refl. }
  assert (Tn : In (js_address ta) (map i_key (firstn 9 ms))) by (rewrite Em; cbn; do 8 right; left; destruct ta; reflexivity).
  assert (Ln : length ms = (9 + length (map sg_key multi))%nat) by (rewrite Em, app_length, !map_length; reflexivity).
  assert (Ld : (length (1%N :: to_le 8 (Z.to_N amount)) <= 9)%nat) by (cbn [length]; rewrite to_le_length; lia).
  assert (Lq : (length (map sg_key multi) <= 7)%nat) by (rewrite map_length; exact Lm).
  cbn [wire_of tx_prog tx_metas tx_data]. split; [exact (acting_fits c v0 payer tw_id ms _ (js_address ta) (map sg_key multi) L Sg Sk Tn Ln Ld Lq)|].
  apply (acting_fits c v0 payer tw_id _ _ (js_address ta) (map sg_key multi) L).
  - intros m Hm X. unfold raised in Hm. apply in_map_iff in Hm. destruct Hm as (q & <- & Hq). cbn [i_key i_signer] in *. unfold must_sign in X. apply orb_true_iff in X.
    destruct X as [X|X]; [apply pk_eqb_eq in X; left; symmetry; exact X|]. cbn [existsb ix_accounts tx_metas] in X. rewrite orb_false_r in X. apply is_sig_in in X. destruct X as (z & Hz & <- & X). exact (Sg z Hz X).
  - unfold raised. rewrite skipn_map, map_map. cbn [i_key]. exact Sk.
  - unfold raised. rewrite firstn_map, map_map. cbn [i_key]. exact Tn.
  - unfold raised. rewrite map_length. exact Ln.
  - exact Ld.
  - exact Lq.
Qed.
Lemma js_unwrap_fits c v0 e payer esc r a u wtp utp s w ta amount multi i : lawful_encoding c -> (length multi <= 7)%nat ->
  js_unwrap tw_id esc r a u wtp utp s w ta amount multi = Ok i ->
  w_size c v0 payer [wire_of e (TxTokenWrap i)] <= packet /\ w_size c v0 payer [wire_of e (TxTokenWrap (mkTwIx (tx_prog i) (raised e payer [TxTokenWrap i] (tx_metas i)) (tx_data i)))] <= packet.
Proof.
  intros L Lm H. unfold js_unwrap in H. apply bind_ok in H. destruct H as (d & Hd & H). unfold js_u64 in Hd. apply bind_ok in Hd. destruct Hd as ([] & _ & Hd). injection Hd as <-.
  remember ([js_meta tw_id (some_address esc) true; js_meta tw_id (some_address r) true; js_meta tw_id (some_address a) false;
      js_meta tw_id (some_address u) false; js_meta tw_id (some_address wtp) false; js_meta tw_id (some_address utp) false;
      js_meta tw_id (some_address s) true; js_meta tw_id (some_address w) true; js_meta tw_id (Some ta) false] ++
     map (fun x => mkInfo (sg_key x) true false) multi) as ms eqn:Em. injection H as <-.
  assert (Sg : forall m, In m ms -> i_signer m = true -> In (i_key m) (payer :: js_address ta :: map sg_key multi)).
  { intros m Hm X. rewrite Em in Hm. apply in_app_or in Hm. destruct Hm as [Hm|Hm].
    - repeat (destruct Hm as [<-|Hm]; [first [discriminate X | right; left; destruct ta; [reflexivity|discriminate X]]|]). destruct Hm.
    - apply in_map_iff in Hm. destruct Hm as (k & <- & Hk). right. right. cbn [i_key]. apply in_map. exact Hk. }
  assert (Sk : incl (map i_key (skipn 9 ms)) (map sg_key multi)).
  { rewrite Em. change (skipn 9 _) with (map (fun x => mkInfo (sg_key x) true false) multi). rewrite map_map. apply incl_refl. }
  assert (Tn : In (js_address ta) (map i_key (firstn 9 ms))) by (rewrite Em; cbn; do 8 right; left; destruct ta; reflexivity).
  assert (Ln : length ms = (9 + length (map sg_key multi))%nat) by (rewrite Em, app_length, !map_length; reflexivity).
  assert (Ld : (length (2%N :: to_le 8 (Z.to_N amount)) <= 9)%nat) by (cbn [length]; rewrite to_le_length; lia).
  assert (Lq : (length (map sg_key multi) <= 7)%nat) by (rewrite map_length; exact Lm).
  cbn [wire_of tx_prog tx_metas tx_data]. split; [exact (acting_fits c v0 payer tw_id ms _ (js_address ta) (map sg_key multi) L Sg Sk Tn Ln Ld Lq)|].
  apply (acting_fits c v0 payer tw_id _ _ (js_address ta) (map sg_key multi) L).
  - intros m Hm X. unfold raised in Hm. apply in_map_iff in Hm. destruct Hm as (q & <- & Hq). cbn [i_key i_signer] in *. unfold must_sign in X. apply orb_true_iff in X.
    destruct X as [X|X]; [apply pk_eqb_eq in X; left; symmetry; exact X|]. cbn [existsb ix_accounts tx_metas] in X. rewrite orb_false_r in X. apply is_sig_in in X. destruct X as (z & Hz & <- & X). exact (Sg z Hz X).
  - unfold raised. rewrite skipn_map, map_map. cbn [i_key]. exact Sk.
  - unfold raised. rewrite firstn_map, map_map. cbn [i_key]. exact Tn.
  - unfold raised. rewrite map_length. exact Ln.
  - exact Ld.
  - exact Lq.
Qed.
Lemma js_made payer r t : js_transaction payer r = Ok t -> exists ixs, r = Ok ixs /\ tr_payer t = sg_key payer /\ tr_ixs t = map jx_ix ixs.
Proof.
  unfold js_transaction. intro H. apply bind_ok in H. destruct H as (ixs & E & H). exists ixs. split; [exact E|]. destruct (js_sign_inv _ _ _ H) as (A & B & _). split; assumption.
Qed.
Theorem C72_js_fits : forall c e dec payer l t,
  lawful_encoding c ->
  (forall u wtp idempotent, js_transaction payer (js_create_mint_helper e payer u wtp idempotent l) = Ok t -> transaction_size c true e t <= packet) /\
  (forall u wtp ixs, js_create_escrow e dec payer u wtp l = Ok (Some ixs) -> js_transaction payer (Ok ixs) = Ok t -> transaction_size c true e t <= packet) /\
  (forall x, js_transaction payer (js_single_wrap e dec payer x l) = Ok t -> transaction_size c true e t <= packet) /\
  (forall x, js_transaction payer (js_single_unwrap e dec payer x l) = Ok t -> transaction_size c true e t <= packet) /\
  (forall u, js_transaction payer (js_example_sync_to_token_2022 e u) = Ok t -> transaction_size c true e t <= packet) /\
  (forall u, js_transaction payer (js_example_sync_to_spl_token e u) = Ok t -> transaction_size c true e t <= packet) /\
  (* offline multisig: the message everybody signs, and whatever signatures are combined *)
  (forall hash source wtp amount w a ta u recipient utp multi copy ss,
     (length multi <= 7)%nat ->
     (js_offline_wrap e payer hash source wtp amount w a ta u recipient utp multi = Ok copy \/
      js_offline_unwrap e payer hash source amount w a u recipient utp wtp ta multi = Ok copy) ->
     transaction_size c true e (to_network e (sn_msg copy, ss)) <= packet).
Proof.
  intros c e dec payer l t L. unfold transaction_size.
  split; [|split; [|split; [|split; [|split; [|split]]]]].
  - intros u wtp i H. apply js_made in H. destruct H as (ixs & H & -> & ->). unfold js_create_mint_helper in H. apply bind_ok in H. destruct H as (w & _ & H). apply bind_ok in H. destruct H as (b & _ & H). cbv zeta in H. injection H as <-.
    rewrite !map_app. unfold js_top_up.
    assert (X : forall (q : bool) k n, map jx_ix (if q then [mkJsIx (TxTransfer (sg_key payer) k n) [payer]] else []) = if q then [TxTransfer (sg_key payer) k n] else []) by (intros [] k n; reflexivity).
    rewrite !X, <- !map_app. cbn [map jx_ix]. unfold js_create_mint, js_meta, some_address. cbn [js_or]. apply (create_fits c true (sg_key payer) w b u system_id wtp _ _ _ _ _ e L). reflexivity.
  - intros u wtp ixs H J. apply js_made in J. destruct J as (ixs' & J & -> & ->). injection J as <-. unfold js_create_escrow in H.
    apply bind_ok in H. destruct H as (w & _ & H). apply bind_ok in H. destruct H as (a & _ & H). apply bind_ok in H. destruct H as (utp & _ & H). apply bind_ok in H. destruct H as (esc & _ & H).
    destruct (get_account l esc); [apply bind_ok in H; destruct H as (? & _ & H); discriminate H|]. injection H as <-. cbn [map jx_ix]. apply associated_fits. exact L.
  - intros x H. apply js_made in H. destruct H as (ixs & H & -> & ->). unfold js_single_wrap in H.
    apply bind_ok in H. destruct H as (u & _ & H). apply bind_ok in H. destruct H as (utp & _ & H). apply bind_ok in H. destruct H as (w & _ & H). apply bind_ok in H. destruct H as (a & _ & H). apply bind_ok in H. destruct H as (r & _ & H). cbv zeta in H.
    apply bind_ok in H. destruct H as (i & H & Q). injection Q as <-. unfold js_build_wrap in H. apply bind_ok in H. destruct H as (esc & _ & H). apply bind_ok in H. destruct H as (i' & H & Q). injection Q as <-. cbn [map jx_ix].
    assert (L0 : (@length signer [] <= 7)%nat) by (cbn; lia). destruct (js_wrap_fits c true e (sg_key payer) _ _ _ _ _ _ _ _ _ _ _ _ L L0 H) as [F _]. exact F.
  - intros x H. apply js_made in H. destruct H as (ixs & H & -> & ->). unfold js_single_unwrap in H.
    apply bind_ok in H. destruct H as (wtp & _ & H). apply bind_ok in H. destruct H as (utp & _ & H). apply bind_ok in H. destruct H as (u & _ & H). apply bind_ok in H. destruct H as (w & _ & H). apply bind_ok in H. destruct H as (a & _ & H). cbv zeta in H.
    apply bind_ok in H. destruct H as (i & H & Q). injection Q as <-. unfold js_build_unwrap in H. apply bind_ok in H. destruct H as (esc & _ & H). apply bind_ok in H. destruct H as (i' & H & Q). injection Q as <-. cbn [map jx_ix].
    assert (L0 : (@length signer [] <= 7)%nat) by (cbn; lia). destruct (js_unwrap_fits c true e (sg_key payer) _ _ _ _ _ _ _ _ _ _ _ _ L L0 H) as [F _]. exact F.
  - intros u H. apply js_made in H. destruct H as (ixs & H & -> & ->). unfold js_example_sync_to_token_2022 in H. apply bind_ok in H. destruct H as (md & _ & H). apply bind_ok in H. destruct H as (w & _ & H). apply bind_ok in H. destruct H as (a & _ & H). injection H as <-.
    cbn [map jx_ix]. apply plain_fits; [exact L| | |].
    + cbn. intros m Hm. repeat (destruct Hm as [<-|Hm]; [reflexivity|]). destruct Hm.
    + cbn. lia.
    + cbn. lia.
  - intros u H. apply js_made in H. destruct H as (ixs & H & -> & ->). unfold js_example_sync_to_spl_token in H. apply bind_ok in H. destruct H as (w & _ & H). apply bind_ok in H. destruct H as (md & _ & H). apply bind_ok in H. destruct H as (a & _ & H). injection H as <-.
    cbn [map jx_ix]. apply plain_fits; [exact L| | |].
    + cbn. intros m Hm. repeat (destruct Hm as [<-|Hm]; [reflexivity|]). destruct Hm.
    + cbn. lia.
    + cbn. lia.
  - intros hash source wtp amount w a ta u recipient utp multi copy ss Lm [H|H].
    + unfold js_offline_wrap, js_offline in H. apply bind_ok in H. destruct H as (i & H & Q). unfold js_build_wrap in H. apply bind_ok in H. destruct H as (esc & _ & H). apply bind_ok in H. destruct H as (i' & H & R). injection R as <-. cbn [jx_ix jx_signers] in Q.
      unfold partially_sign in Q. apply bind_ok in Q. destruct Q as ([] & _ & Q). injection Q as <-. cbn [sn_msg to_network tr_payer tr_ixs map compile mg_payer mg_ix].
      exact (proj2 (js_wrap_fits c true e (sg_key payer) _ _ _ _ _ _ _ _ _ _ _ _ L Lm H)).
    + unfold js_offline_unwrap, js_offline in H. apply bind_ok in H. destruct H as (i & H & Q). unfold js_build_unwrap in H. apply bind_ok in H. destruct H as (esc & _ & H). apply bind_ok in H. destruct H as (i' & H & R). injection R as <-. cbn [jx_ix jx_signers] in Q.
      unfold partially_sign in Q. apply bind_ok in Q. destruct Q as ([] & _ & Q). injection Q as <-. cbn [sn_msg to_network tr_payer tr_ixs map compile mg_payer mg_ix].
      exact (proj2 (js_unwrap_fits c true e (sg_key payer) _ _ _ _ _ _ _ _ _ _ _ _ L Lm H)).
Qed.
Print Assumptions C72_js_fits.

(** ** C72: the bytes say it all *)
Lemma compact_inj a b x y : compact a ++ x = compact b ++ y -> a = b /\ x = y.
Proof.
  assert (H128 : 128 <> 0) by lia.
  pose proof (N.div_mod a 128 H128) as A1. pose proof (N.div_mod b 128 H128) as B1. pose proof (N.mod_lt a 128 H128) as A2. pose proof (N.mod_lt b 128 H128) as B2.
  pose proof (N.div_mod (a / 128) 128 H128) as A3. pose proof (N.div_mod (b / 128) 128 H128) as B3. pose proof (N.mod_lt (a / 128) 128 H128) as A4. pose proof (N.mod_lt (b / 128) 128 H128) as B4.
  assert (A5 : a / 16384 = a / 128 / 128) by (rewrite N.div_div by lia; reflexivity). assert (B5 : b / 16384 = b / 128 / 128) by (rewrite N.div_div by lia; reflexivity).
  unfold compact. rewrite A5, B5. revert A1 B1 A2 B2 A3 B3 A4 B4. clear A5 B5. generalize (a / 128 / 128) as a2, (b / 128 / 128) as b2, ((a / 128) mod 128) as a1, ((b / 128) mod 128) as b1, (a mod 128) as a0, (b mod 128) as b0. generalize (a / 128) as aq, (b / 128) as bq.
  intros aq bq a2 b2 a1 b1 a0 b0 A1 B1 A2 B2 A3 B3 A4 B4.
  destruct (N.ltb_spec a 128) as [C1|C1]; [|destruct (N.ltb_spec a 16384) as [C2|C2]]; (destruct (N.ltb_spec b 128) as [D1|D1]; [|destruct (N.ltb_spec b 16384) as [D2|D2]]); cbn [app]; intro H.
  - injection H as -> ->. split; reflexivity.
  - apply (f_equal (hd 0)) in H. cbn [hd] in H. exfalso. clear - H C1. lia.
  - apply (f_equal (hd 0)) in H. cbn [hd] in H. exfalso. clear - H C1. lia.
  - apply (f_equal (hd 0)) in H. cbn [hd] in H. exfalso. clear - H D1. lia.
  - remember (128 + a0) as p. remember (128 + b0) as q. injection H as E1 E2 E3. split; [lia|exact E3].
  - remember (128 + a0) as p. remember (128 + b0) as q. remember (128 + b1) as q1. injection H as E1 E2 _. lia.
  - apply (f_equal (hd 0)) in H. cbn [hd] in H. exfalso. clear - H D1. lia.
  - remember (128 + a0) as p. remember (128 + b0) as q. remember (128 + a1) as q1. injection H as E1 E2 _. lia.
  - remember (128 + a0) as p. remember (128 + b0) as q. remember (128 + a1) as p1. remember (128 + b1) as q1. injection H as E1 E2 E3 E4. split; [lia|exact E4].
Qed.
Lemma app_same {A} (a b x y : list A) : length a = length b -> a ++ x = b ++ y -> a = b /\ x = y.
Proof.
  revert b. induction a as [|p r IH]; intros [|q s] Hl H; try discriminate Hl; [split; [reflexivity|exact H]|]. cbn in H. injection H as -> H. injection Hl as Hl.
  destruct (IH s Hl H) as [-> ->]. split; reflexivity.
Qed.
Lemma chunks_same (f : pubkey -> list N) ks ks' : (forall k, length (f k) = 32%nat) -> (forall k k', In k ks -> In k' ks' -> f k = f k' -> k = k') -> length ks = length ks' ->
  flat_map f ks = flat_map f ks' -> ks = ks'.
Proof.
  intro L. revert ks'. induction ks as [|a r IH]; intros [|b s] I Hl H; try discriminate Hl; [reflexivity|]. cbn [flat_map] in H. injection Hl as Hl.
  destruct (app_same (f a) (f b) (flat_map f r) (flat_map f s)) as [X Y]; [rewrite !L; reflexivity|exact H|].
  rewrite (I a b (or_introl eq_refl) (or_introl eq_refl) X). f_equal. apply IH; [intros k k' Hk Hk'; apply I; right; assumption|exact Hl|exact Y].
Qed.
Lemma place_nth k ks : In k ks -> nth_error ks (place k ks) = Some k.
Proof.
  induction ks as [|a r IH]; intros H; [destruct H|]. cbn [place]. destruct (pk_eqb a k) eqn:E; [apply pk_eqb_eq in E; subst a; reflexivity|]. cbn [nth_error]. apply IH. destruct H as [->|H]; [rewrite pk_eqb_refl in E; discriminate E|exact H].
Qed.
Lemma place_inj k k' ks : In k ks -> In k' ks -> place k ks = place k' ks -> k = k'.
Proof. intros H H' E. apply place_nth in H. apply place_nth in H'. rewrite E, H' in H. injection H as ->. reflexivity. Qed.
Lemma places_inj ks (x y : list info) : (forall m, In m x -> In (i_key m) ks) -> (forall m, In m y -> In (i_key m) ks) ->
  map (fun m => N.of_nat (place (i_key m) ks)) x = map (fun m => N.of_nat (place (i_key m) ks)) y -> map i_key x = map i_key y.
Proof.
  revert y. induction x as [|a r IH]; intros [|b s] Hx Hy H; try discriminate H; [reflexivity|]. cbn [map] in *. injection H as H1 H2. apply Nnat.Nat2N.inj in H1. f_equal.
  - exact (place_inj _ _ ks (Hx a (or_introl eq_refl)) (Hy b (or_introl eq_refl)) H1).
  - apply IH; [intros m Hm; apply Hx; right; exact Hm|intros m Hm; apply Hy; right; exact Hm|exact H2].
Qed.
Lemma to_le_inj n x y : x < 256 ^ N.of_nat n -> y < 256 ^ N.of_nat n -> to_le n x = to_le n y -> x = y.
Proof.
  revert x y. induction n as [|n IH]; intros x y Hx Hy H; [cbn in Hx, Hy; lia|].
  rewrite Nnat.Nat2N.inj_succ, N.pow_succ_r' in Hx, Hy. cbn [to_le] in H. injection H as H1 H2.
  apply IH in H2; [|apply N.div_lt_upper_bound; lia|apply N.div_lt_upper_bound; lia].
  rewrite (N.div_mod x 256), (N.div_mod y 256), H1, H2 by lia. reflexivity.
Qed.
Lemma flags_same c P ixs ixs' k : lawful_encoding c -> (forall s w, w_class c P ixs s w = w_class c P ixs' s w) -> In k (w_keys c P ixs) ->
  w_signs P ixs k = w_signs P ixs' k /\ w_writes P ixs k = w_writes P ixs' k.
Proof.
  intros L C H. destruct (pk_dec k P) as [->|Ne]; [unfold w_signs, w_writes; rewrite pk_eqb_refl; split; reflexivity|].
  apply (keys_in c P ixs k L) in H. destruct H as [H|H]; [contradiction|]. assert (O : In k (w_others P ixs)) by (apply others_in; split; assumption).
  assert (X : In k (w_class c P ixs (w_signs P ixs k) (w_writes P ixs k))) by (apply (class_in c P ixs _ _ k L); split; [exact O|split; reflexivity]).
  rewrite C in X. apply (class_in c P ixs' _ _ k L) in X. destruct X as (_ & A & B). split; symmetry; assumption.
Qed.
(** The accounts a message names. *)
Definition named (m : message) : list pubkey := mg_payer m :: tx_prog (mg_ix m) :: map i_key (tx_metas (mg_ix m)).

Lemma bytes_aux c v0 P P' p p' x x' d d' h h' : lawful_encoding c -> h < 2 ^ 256 -> h' < 2 ^ 256 ->
  (forall k k', In k (P :: p :: map i_key x) -> In k' (P' :: p' :: map i_key x') -> en_key c k = en_key c k' -> k = k') ->
  w_message c v0 P [mkWireIx p x d] h = w_message c v0 P' [mkWireIx p' x' d'] h' ->
  P = P' /\ p = p' /\ map i_key x = map i_key x' /\ d = d' /\ h = h' /\
  forall k, In k (map i_key x) -> w_signs P [mkWireIx p x d] k = w_signs P' [mkWireIx p' x' d'] k /\ w_writes P [mkWireIx p x d] k = w_writes P' [mkWireIx p' x' d'] k.
Proof.
  intros L Hh Hh' I H. set (ixs := [mkWireIx p x d]) in *. set (ixs' := [mkWireIx p' x' d']) in *.
  assert (IN : forall k, In k (w_keys c P ixs) <-> In k (P :: p :: map i_key x)).
  { intro k. rewrite (keys_in c P ixs k L). unfold ixs. rewrite all_one, in_app_iff. cbn [In wi_accounts wi_program]. intuition. }
  assert (IN' : forall k, In k (w_keys c P' ixs') <-> In k (P' :: p' :: map i_key x')).
  { intro k. rewrite (keys_in c P' ixs' k L). unfold ixs'. rewrite all_one, in_app_iff. cbn [In wi_accounts wi_program]. intuition. }
  unfold w_message in H. cbv zeta in H. apply app_same in H; [|destruct v0; reflexivity]. destruct H as [_ H].
  apply app_same in H; [|reflexivity]. destruct H as [HD H]. unfold w_header in HD.
  assert (H1 : w_signatures c P ixs = w_signatures c P' ixs') by (apply (f_equal (hd 0)) in HD; cbn [hd] in HD; apply Nnat.Nat2N.inj in HD; exact HD).
  assert (H2 : length (w_class c P ixs true false) = length (w_class c P' ixs' true false)) by (apply (f_equal (fun z => hd 0 (tl z))) in HD; cbn [hd tl] in HD; apply Nnat.Nat2N.inj in HD; exact HD).
  assert (H3 : length (w_class c P ixs false false) = length (w_class c P' ixs' false false)) by (apply (f_equal (fun z => hd 0 (tl (tl z)))) in HD; cbn [hd tl] in HD; apply Nnat.Nat2N.inj in HD; exact HD).
  clear HD.
  apply compact_inj in H. destruct H as [Hn H]. apply Nnat.Nat2N.inj in Hn.
  apply app_same in H; [|rewrite !(chunks_length (en_key c) 32 _ (proj1 L)), Hn; reflexivity]. destruct H as [Hk H].
  apply (chunks_same (en_key c) _ _ (proj1 L)) in Hk; [|intros k k' A B; apply I; [apply IN; exact A|apply IN'; exact B]|exact Hn].
  apply app_same in H; [|rewrite !to_le_length; reflexivity]. destruct H as [Eh H].
  assert (EH : h = h'). { apply (to_le_inj 32 h h'); [|  |exact Eh]; (eapply N.lt_le_trans; [eassumption|]); vm_compute; discriminate. } clear Eh.
  apply compact_inj in H. destruct H as [_ H]. apply app_same in H; [|].
  2:{ apply (f_equal (@length N)) in H. rewrite !app_length in H. clear - H. lia. }
  destruct H as [H _].
  (* the classes *)
  assert (EP : P = P') by (unfold w_keys in Hk; injection Hk as E _; exact E). subst P'.
  assert (HC : forall s w, w_class c P ixs s w = w_class c P ixs' s w).
  { unfold w_signatures in H1. unfold w_keys in Hk, Hn. cbn [length] in Hn. rewrite !app_length in Hn. injection Hk as Hk.
    apply app_same in Hk; [|lia]. destruct Hk as [K1 Hk]. apply app_same in Hk; [|exact H2]. destruct Hk as [K2 Hk]. apply app_same in Hk; [|lia]. destruct Hk as [K3 K4].
    intros [] []; assumption. }
  assert (FL : forall k, In k (map i_key x) -> w_signs P ixs k = w_signs P ixs' k /\ w_writes P ixs k = w_writes P ixs' k).
  { intros k Hkx. apply (flags_same c P ixs ixs' k L HC). apply IN. right. right. exact Hkx. }
  rewrite <- Hk in H. unfold ixs at 2, ixs' in H. cbn [flat_map] in H. rewrite !app_nil_r in H. unfold w_ix in H. cbn [wi_program wi_accounts wi_data] in H.
  assert (IX : forall k, In k (P :: p' :: map i_key x') -> In k (w_keys c P ixs)) by (intros k X; rewrite Hk; apply IN'; exact X).
  injection H as Hp H. apply Nnat.Nat2N.inj in Hp.
  assert (Ep : p = p') by (apply (place_inj p p' (w_keys c P ixs)); [apply IN; right; left; reflexivity|apply IX; right; left; reflexivity|exact Hp]).
  unfold w_list in H. rewrite <- !app_assoc in H. apply compact_inj in H. destruct H as [Hx H]. apply Nnat.Nat2N.inj in Hx. apply app_same in H; [|exact Hx]. destruct H as [Ha H].
  apply compact_inj in H. destruct H as [_ Ed].
  assert (Ex : map i_key x = map i_key x').
  { apply (places_inj (w_keys c P ixs)); [intros m Hm; apply IN; right; right; apply in_map; exact Hm|intros m Hm; apply IX; right; right; apply in_map; exact Hm|exact Ha]. }
  split; [reflexivity|]. split; [exact Ep|]. split; [exact Ex|]. split; [exact Ed|]. split; [exact EH|exact FL].
Qed.
(** C72: two messages are encoded to the same bytes only if they are the same: payer, program, every account with its rights, data
    and block hash.  So whoever signs the bytes has signed exactly that, and comparing bytes (as the combination of offline signatures
    does) is comparing transactions. *)
Theorem C72_same_bytes : forall c v0 e e' P P' i i' h h',
  lawful_encoding c -> h < 2 ^ 256 -> h' < 2 ^ 256 ->
  let m := compile e P i h in let m' := compile e' P' i' h' in
  (forall k k', In k (named m) -> In k' (named m') -> en_key c k = en_key c k' -> k = k') ->
  (message_bytes c v0 m = message_bytes c v0 m' <-> m = m') /\ (message_bytes c v0 m = message_bytes c v0 m' <-> message_eqb m m' = true).
Proof.
  intros c v0 e e' P P' i i' h h' L Hh Hh' m m' I.
  assert (F : message_bytes c v0 m = message_bytes c v0 m' <-> m = m').
  { split; [|intros ->; reflexivity]. intro H. unfold message_bytes, m, m', compile in H. cbn [mg_payer mg_ix mg_hash tx_prog tx_metas tx_data] in H.
    unfold m, m', named, compile in I. cbn [mg_payer mg_ix mg_hash tx_prog tx_metas tx_data] in I.
    destruct (bytes_aux c v0 P P' _ _ _ _ _ _ h h' L Hh Hh' I H) as (EP & Ep & Ex & Ed & Eh & FL). subst P' h'. rewrite !raised_keys in Ex. rewrite raised_keys in FL.
    unfold m, m', compile. f_equal. rewrite Ep, Ed. f_equal. clear H I.
    assert (G : forall k, In k (map i_key (tx_metas i)) -> must_sign e P [TxTokenWrap i] k = must_sign e' P [TxTokenWrap i'] k /\ may_write e P [TxTokenWrap i] k = may_write e' P [TxTokenWrap i'] k).
    { intros k Hk. destruct (FL k Hk) as [A B]. rewrite <- (raised_signs e P i k), <- (raised_signs e' P i' k), <- (raised_writes e P i k), <- (raised_writes e' P i' k). split; [exact A|exact B]. }
    unfold raised. clear FL Ep Ed. revert G Ex.
    generalize (must_sign e P [TxTokenWrap i]) as s, (must_sign e' P [TxTokenWrap i']) as s', (may_write e P [TxTokenWrap i]) as w, (may_write e' P [TxTokenWrap i']) as w'.
    generalize (tx_metas i) as x, (tx_metas i') as y. intros x y s s' w w' G. revert y. induction x as [|a r IH]; intros [|b q] E; try discriminate E; [reflexivity|]. cbn [map] in E |- *. injection E as E1 E2. rewrite <- E1.
    destruct (G (i_key a) (or_introl eq_refl)) as [-> ->]. f_equal. apply IH; [intros k Hk; apply G; right; exact Hk|exact E2]. }
  split; [exact F|]. rewrite F. symmetry. apply message_eqb_eq.
Qed.
Print Assumptions C72_same_bytes.

(** C72: a legacy message is never taken for a version 0 one: its first byte is the number of signatures, which fits into seven bits. *)
Theorem C72_versions_apart : forall c e e' P P' i i' h h',
  let m := compile e P i h in let m' := compile e' P' i' h' in
  lawful_encoding c -> (length (tx_metas i') < 127)%nat -> message_bytes c true m <> message_bytes c false m'.
Proof.
  intros c e e' P P' i i' h h' m m' L Hl H. unfold message_bytes, w_message in H. cbv zeta in H. cbn [app] in H. unfold w_header in H. cbn [app] in H.
  apply (f_equal (hd 0)) in H. cbn [hd] in H. unfold m', compile in H. cbn [mg_payer mg_ix tx_prog tx_metas tx_data] in H.
  set (ix := mkWireIx (tx_prog i') (raised e' P' [TxTokenWrap i'] (tx_metas i')) (tx_data i')) in H.
  assert (A : (w_signatures c P' [ix] <= length (P' :: map i_key (tx_metas i')))%nat).
  { apply (signatures_at_most c P' [ix] (P' :: map i_key (tx_metas i')) L). intros k Hk. rewrite signs_one in Hk. unfold ix in Hk. cbn [wi_accounts] in Hk. destruct Hk as [->|Hk]; [left; reflexivity|right].
    rewrite is_sig_in in Hk. destruct Hk as (q & Hq & <- & _). rewrite <- (raised_keys e' P' [TxTokenWrap i'] (tx_metas i')). apply in_map. exact Hq. }
  cbn [length] in A. rewrite map_length in A. lia.
Qed.
Print Assumptions C72_versions_apart.

(** ** Examples.  Every address raw: its number in 32 bytes; derived ones: a number made of the kinds of seeds (enough to tell the
    demo's three derived addresses apart). *)
Fixpoint seed_sum (s : list (N + pubkey)) : N :=
  match s with [] => 0 | inl n :: r => n + 7 * seed_sum r | inr (PkRaw n) :: r => n + 13 * seed_sum r | inr (PkDerived _ _) :: r => 3 + 17 * seed_sum r end.
Definition demo_enc : encoding :=
  mkEncoding (fun k => to_le 32 (match k with PkRaw n => n | PkDerived s _ => 2 ^ 128 + seed_sum s end)) (fun ks => ks).
Lemma demo_enc_lawful : lawful_encoding demo_enc.
Proof. split; [intro k; apply to_le_length|intro ks; apply Permutation_refl]. Qed.

(** The two-of-two multisig's transaction fits. *)
Example C72_fits_example : exists t, transaction_of demo_ms d_carol (CmdWrap ms_wraps) (now_of ms_story) = Ok (Some t) /\
  transaction_size demo_enc false demo_ms t = 669 /\ deliver demo_enc false demo_ms 5 t (now_of ms_story) = send demo_ms 5 t (now_of ms_story).
Proof.
  assert (E : exists t, transaction_of demo_ms d_carol (CmdWrap ms_wraps) (now_of ms_story) = Ok (Some t) /\ transaction_size demo_enc false demo_ms t = 669) by (eexists; split; [vm_compute; reflexivity|vm_compute; reflexivity]).
  destruct E as (t & H & S). exists t. split; [exact H|]. split; [exact S|].
  assert (C : (length (cosigners (CmdWrap ms_wraps)) <= 7)%nat) by (vm_compute; lia).
  exact (proj2 (C72_fits demo_enc demo_ms 5 d_carol (CmdWrap ms_wraps) (now_of ms_story) t demo_enc_lawful H C)).
Qed.

(** An eight-of-eight multisig, Carol paying: the program would carry out its wrap, but it does not fit. *)
Definition eight : list pubkey := [PkRaw 120; PkRaw 121; PkRaw 122; PkRaw 123; PkRaw 124; PkRaw 125; PkRaw 126; PkRaw 127].
Definition ms8_story : list cmd := setup ++
  [ CFund d_carol 5000; CAlloc d_ms 355 5000 spl_token_id; CTok spl_token_id (meta_w d_ms false :: map (fun k => meta_r k false) eight) (TiInitializeMultisig (mkMultisig 8 eight));
    CAlloc d_ms_u 165 5000 spl_token_id; CTok spl_token_id [meta_w d_ms_u false; meta_r d_u false] (TiInitializeAccount d_ms false);
    CTok spl_token_id [meta_w d_u false; meta_w d_ms_u false; meta_r d_mintauth true] (TiMintTo 500) ].
Definition ms8_wraps : wrap_args :=
  mkWrapArgs d_ms_u t22_id 70 (Some (mkSigner d_ms false)) (Some d_u) (Some d_alice_w) (Some spl_token_id) (map (fun k => mkSigner k true) eight) [].
Example C72_large_multisig_refuted_example : exists t, reachable demo_env (now_of ms8_story) /\
  transaction_of demo_ms d_carol (CmdWrap ms8_wraps) (now_of ms8_story) = Ok (Some t) /\
  (exists l', send demo_ms 5 t (now_of ms8_story) = (l', Ok tt) /\ balance l' d_ms_u = 430 /\ balance l' (d_esc spl_token_id t22_id) = 70) /\
  transaction_size demo_enc false demo_ms t = 1251 /\ deliver demo_enc false demo_ms 5 t (now_of ms8_story) = (now_of ms8_story, Err EInvalidArgument).
Proof.
  assert (E : exists t, transaction_of demo_ms d_carol (CmdWrap ms8_wraps) (now_of ms8_story) = Ok (Some t) /\ transaction_size demo_enc false demo_ms t = 1251 /\
    (let '(l', r) := send demo_ms 5 t (now_of ms8_story) in match r with Ok _ => true | Err _ => false end && (balance l' d_ms_u =? 430) && (balance l' (d_esc spl_token_id t22_id) =? 70)) = true).
  { eexists. split; [vm_compute; reflexivity|]. split; [vm_compute; reflexivity|vm_compute; reflexivity]. }
  destruct E as (t & H & S & V). exists t. split; [exists (past_of ms8_story); apply played_history; vm_compute; reflexivity|]. split; [exact H|].
  split; [|split; [exact S|unfold deliver; rewrite S; reflexivity]].
  destruct (send demo_ms 5 t (now_of ms8_story)) as [l' [[]|x]]; [|discriminate V]. apply andb_prop in V. destruct V as [V1 V2]. apply andb_prop in V1. destruct V1 as [_ V1]. apply N.eqb_eq in V1, V2.
  exists l'. split; [reflexivity|]. split; assumption.
Qed.

(** Carol's message for the two-of-two multisig, and the same with one token more: told apart by their bytes. *)
Definition ms_message (n : N) : message :=
  compile demo_ms d_carol (build_wrap tw_id d_alice_w (d_w t22_id) (d_a t22_id) spl_token_id t22_id d_ms_u d_u (d_esc spl_token_id t22_id) d_ms [d_alice; d_bob] n) 77.
Definition apartb (f : pubkey -> list N) (ks ks' : list pubkey) : bool :=
  forallb (fun k => forallb (fun k' => if list_eq_dec N.eq_dec (f k) (f k') then pk_eqb k k' else true) ks') ks.
Lemma apartb_true f ks ks' : apartb f ks ks' = true -> forall k k', In k ks -> In k' ks' -> f k = f k' -> k = k'.
Proof.
  unfold apartb. rewrite forallb_forall. intros H k k' Hk Hk' E. specialize (H k Hk). rewrite forallb_forall in H. specialize (H k' Hk').
  destruct (list_eq_dec N.eq_dec (f k) (f k')) as [_|X]; [apply pk_eqb_eq in H; exact H|contradiction].
Qed.
Example C72_same_bytes_example : length (message_bytes demo_enc true (ms_message 70)) = 478%nat /\ message_bytes demo_enc true (ms_message 70) <> message_bytes demo_enc true (ms_message 71).
Proof.
  split; [vm_compute; reflexivity|]. intro H.
  destruct (C72_same_bytes demo_enc true demo_ms demo_ms d_carol d_carol
    (build_wrap tw_id d_alice_w (d_w t22_id) (d_a t22_id) spl_token_id t22_id d_ms_u d_u (d_esc spl_token_id t22_id) d_ms [d_alice; d_bob] 70)
    (build_wrap tw_id d_alice_w (d_w t22_id) (d_a t22_id) spl_token_id t22_id d_ms_u d_u (d_esc spl_token_id t22_id) d_ms [d_alice; d_bob] 71) 77 77) as [_ F];
    [exact demo_enc_lawful|reflexivity|reflexivity|apply apartb_true; vm_compute; reflexivity|].
  apply F in H. vm_compute in H. discriminate H.
Qed.
