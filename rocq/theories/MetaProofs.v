(** * MetaProofs.v — metadata sources and the Metaplex conversion. *)
From Verif Require Import Base Codec State Pda TokenProg Cpi Meta Processor Tac CodecProofs PdaProofs TokProofs FrameProofs ProcProofs Spec SpecLemmas WrapProofs CreateProofs CreateProofs2 CreateSpec MapProofs SyncProofs SyncProofs2.

(** ** Decimal numerals *)
Lemma digit_val_char d : d < 10 -> digit_val (ascii_of_N (48 + d)) = Some d.
Proof.
  intro H. unfold digit_val. rewrite N_ascii_embedding by lia.
  replace ((48 <=? 48 + d) && (48 + d <=? 57)) with true; [f_equal; lia|].
  symmetry. apply andb_true_iff. split; apply N.leb_le; lia.
Qed.
Lemma digit_val_inv c d : digit_val c = Some d -> d < 10 /\ c = ascii_of_N (48 + d).
Proof.
  unfold digit_val. intro H. destruct ((48 <=? N_of_ascii c) && (N_of_ascii c <=? 57)) eqn:E; [|discriminate].
  injection H as <-. apply andb_true_iff in E. rewrite !N.leb_le in E. split; [lia|].
  replace (48 + (N_of_ascii c - 48)) with (N_of_ascii c) by lia. rewrite ascii_N_embedding. reflexivity.
Qed.
Lemma value_ge ds : forall a, a <= fold_left (fun a d => a * 10 + d) ds a.
Proof. induction ds as [|d ds IH]; cbn; intro a; [lia|]. specialize (IH (a * 10 + d)). lia. Qed.
Lemma parse_digits_ok max ds : Forall (fun d => d < 10) ds -> forall a,
  fold_left (fun a d => a * 10 + d) ds a <= max ->
  parse_digits max a (digits_string ds) = Some (fold_left (fun a d => a * 10 + d) ds a).
Proof.
  induction 1 as [|d ds Hd Hds IH]; intros a H; [reflexivity|].
  cbn [digits_string map string_of_list_ascii parse_digits] in *. rewrite digit_val_char by exact Hd. cbv zeta.
  cbn [fold_left] in H. pose proof (value_ge ds (a * 10 + d)).
  replace (a * 10 + d <=? max) with true by (symmetry; apply N.leb_le; lia). cbn [fold_left]. apply IH. exact H.
Qed.
Lemma parse_digits_inv max s : forall a n, a <= max -> parse_digits max a s = Some n ->
  exists ds, Forall (fun d => d < 10) ds /\ s = digits_string ds /\ n = fold_left (fun a d => a * 10 + d) ds a /\ n <= max.
Proof.
  induction s as [|c s IH]; cbn; intros a n Ha H.
  - injection H as <-. exists []. repeat split; auto.
  - destruct (digit_val c) as [d|] eqn:E; [|discriminate]. apply digit_val_inv in E. destruct E as [Hd ->].
    destruct (a * 10 + d <=? max) eqn:F; [|discriminate]. apply N.leb_le in F.
    destruct (IH _ _ F H) as (ds & A & -> & -> & B). exists (d :: ds). repeat split; auto.
Qed.
Lemma digits_string_inj_nonempty ds : ds <> [] -> exists c r, digits_string ds = String c r.
Proof. destruct ds; [congruence|]. intros _. cbn. eauto. Qed.
Lemma digit_not_plus ds c r : Forall (fun d => d < 10) ds -> digits_string ds = String c r -> Ascii.eqb c "+" = false.
Proof.
  intros H E. destruct ds as [|d ds]; [discriminate|]. assert (c = ascii_of_N (48 + d)) as ->.
  { unfold digits_string in E. cbn [map string_of_list_ascii] in E. congruence. }
  inversion H; subst.
  apply Ascii.eqb_neq. intro X. apply (f_equal N_of_ascii) in X. rewrite N_ascii_embedding in X by lia. change (N_of_ascii "+") with 43 in X. lia.
Qed.
Lemma parse_u16_numeral s n : parse_u16 s = Some n <-> numeral_u16 s n.
Proof.
  unfold numeral_u16, digits, digits_value. split.
  - unfold parse_u16. destruct s as [|c r]; [discriminate|]. destruct (Ascii.eqb c "+") eqn:E.
    + apply Ascii.eqb_eq in E. subst c. destruct r as [|c r]; [discriminate|]. intro H.
      destruct (parse_digits_inv _ _ _ _ (N.le_0_l _) H) as (ds & A & B & -> & D). exists ds.
      split; [split; [intro X; rewrite X in B; discriminate|exact A]|]. split; [right; congruence|]. split; [reflexivity|change (2 ^ 16) with 65536; lia].
    + intro H. destruct (parse_digits_inv _ _ _ _ (N.le_0_l _) H) as (ds & A & B & -> & D). exists ds.
      split; [split; [intro X; rewrite X in B; discriminate|exact A]|]. split; [left; congruence|]. split; [reflexivity|change (2 ^ 16) with 65536; lia].
  - intros (ds & [Hn Hf] & [-> | ->] & -> & Hl).
    + destruct (digits_string_inj_nonempty ds Hn) as (c & r & E). unfold parse_u16. rewrite E.
      rewrite (digit_not_plus ds c r Hf E). rewrite <- E. apply parse_digits_ok; [exact Hf|]. change (2 ^ 16) with 65536 in Hl. lia.
    + destruct (digits_string_inj_nonempty ds Hn) as (c & r & E). unfold parse_u16. rewrite Ascii.eqb_refl. rewrite E.
      rewrite <- E. apply parse_digits_ok; [exact Hf|]. change (2 ^ 16) with 65536 in Hl. lia.
Qed.
Lemma show_dec_digits fuel : forall n s, n < 10 ^ N.of_nat fuel -> (0 < fuel)%nat -> exists ds,
  digits ds /\ digits_value ds = n /\ show_dec_fuel fuel n s = (digits_string ds ++ s)%string.
Proof.
  induction fuel as [|f IH]; intros n s Hn Hf; [lia|]. cbn [show_dec_fuel]. cbv zeta.
  assert (Hm : n mod 10 < 10) by (apply N.mod_lt; lia).
  destruct (n / 10 =? 0) eqn:E.
  - apply N.eqb_eq in E. exists [n mod 10]. split; [split; [discriminate|constructor; auto]|].
    split; [unfold digits_value; cbn; pose proof (N.div_mod n 10); lia|reflexivity].
  - apply N.eqb_neq in E. destruct f as [|f].
    { exfalso. cbn in Hn. apply E. apply N.div_small. exact Hn. }
    assert (Hd : n / 10 < 10 ^ N.of_nat (S f)).
    { apply N.div_lt_upper_bound; [lia|]. rewrite <- N.pow_succ_r'. replace (N.succ (N.of_nat (S f))) with (N.of_nat (S (S f))) by lia. exact Hn. }
    destruct (IH (n / 10) (String (digit_char (n mod 10)) s) Hd) as (ds & (A & B) & C & D); [lia|].
    exists (ds ++ [n mod 10]). split.
    { split; [destruct ds; discriminate|]. apply Forall_app. split; [exact B|constructor; auto]. }
    split. { unfold digits_value in *. rewrite fold_left_app, C. cbn. pose proof (N.div_mod n 10). lia. }
    rewrite D. clear. unfold digits_string. rewrite map_app. cbn [map]. induction (map (fun d => ascii_of_N (48 + d)) ds) as [|c r IH]; [reflexivity|].
    cbn. f_equal. exact IH.
Qed.
Lemma string_app_nil s : (s ++ "")%string = s.
Proof. induction s as [|c s IH]; cbn; [reflexivity|]. f_equal. exact IH. Qed.
Lemma show_dec_numeral n : n < 2 ^ 16 -> numeral_u16 (show_dec n) n.
Proof.
  intro H. destruct (show_dec_digits 20 n "" ) as (ds & A & B & C); [change (2 ^ 16) with 65536 in H; change (10 ^ N.of_nat 20) with 100000000000000000000; lia|lia|].
  exists ds. split; [exact A|]. split; [left; unfold show_dec; rewrite C; apply string_app_nil|]. split; [auto|exact H].
Qed.

(** ** Metaplex to DataV2 *)
Definition convert_key (k : string) : bool :=
  String.eqb k "creators" || String.eqb k "seller_fee_basis_points" || String.eqb k "collection" || String.eqb k "uses".

Lemma convert_field_err e k v acc err : convert_field e (k, v) acc = Err err <-> malformed e k v /\ err = EInvalidAccountData.
Proof.
  destruct acc as [[[cr f] co] us]. unfold convert_field, malformed.
  assert (P : parse_u16 v = None <-> forall n, ~ numeral_u16 v n).
  { destruct (parse_u16 v) as [n|] eqn:E; split; try congruence.
    - intro H. exfalso. apply (H n). apply parse_u16_numeral. exact E.
    - intros _ n Hn. apply parse_u16_numeral in Hn. congruence. }
  destruct (String.eqb_spec k "creators") as [->|N1].
  { destruct (e_parse_creators e v); cbn; split; [discriminate|intros [[[_ X]|[[X _]|[[X _]|[X _]]]] _]; discriminate|intro H; injection H as <-; auto|intros [_ ->]; reflexivity]. }
  destruct (String.eqb_spec k "seller_fee_basis_points") as [->|N2].
  { destruct (parse_u16 v) as [n|] eqn:E; cbn; split; [discriminate| |intro H; injection H as <-; split; [right; left; split; [reflexivity|apply P; reflexivity]|reflexivity]|intros [_ ->]; reflexivity].
    intros [[[X _]|[[_ X]|[[X _]|[X _]]]] _]; try discriminate. exfalso. apply (X n). apply parse_u16_numeral. exact E. }
  destruct (String.eqb_spec k "collection") as [->|N3].
  { destruct (e_parse_collection e v); cbn; split; [discriminate|intros [[[X _]|[[X _]|[[_ X]|[X _]]]] _]; discriminate|intro H; injection H as <-; auto 6|intros [_ ->]; reflexivity]. }
  destruct (String.eqb_spec k "uses") as [->|N4].
  { destruct (e_parse_uses e v); cbn; split; [discriminate|intros [[[X _]|[[X _]|[[X _]|[_ X]]]] _]; discriminate|intro H; injection H as <-; auto 7|intros [_ ->]; reflexivity]. }
  split; [discriminate|]. intros [[[X _]|[[X _]|[[X _]|[X _]]]] _]; congruence.
Qed.
Lemma convert_fields_err e kvs : forall acc err,
  convert_fields e kvs acc = Err err <-> (exists k v, In (k, v) kvs /\ malformed e k v) /\ err = EInvalidAccountData.
Proof.
  induction kvs as [|[k v] r IH]; intros acc err; cbn [convert_fields].
  - split; [discriminate|]. intros [(k & v & [] & _) _].
  - destruct (convert_field e (k, v) acc) as [acc'|x] eqn:E; cbn [bind].
    + rewrite IH. split.
      * intros [(k' & v' & H & M) ->]. split; [exists k', v'; split; [right; exact H|exact M]|reflexivity].
      * intros [(k' & v' & [H|H] & M) ->]; [|split; eauto]. injection H as -> ->.
        pose proof (proj2 (convert_field_err e k' v' acc EInvalidAccountData) (conj M eq_refl)). congruence.
    + apply convert_field_err in E. destruct E as [M ->]. split.
      * intro H. injection H as <-. split; [exists k, v; split; [left; reflexivity|exact M]|reflexivity].
      * intros [_ ->]. reflexivity.
Qed.
Lemma convert_err_l e t err :
  token_2022_metadata_to_metaplex e t = Err err <->
  (exists k v, In (k, v) (tm_additional t) /\ malformed e k v) /\ err = EInvalidAccountData.
Proof.
  unfold token_2022_metadata_to_metaplex. rewrite <- (convert_fields_err e (tm_additional t) (None, 0, None, None) err).
  destruct (convert_fields _ _ _) as [[[[a b] c] d]|x]; cbn; split; congruence.
Qed.

(** What the loop has gathered after the fields [kvs], starting from [acc]. *)
Lemma convert_fields_ok e kvs : forall acc acc', convert_fields e kvs acc = Ok acc' ->
  let '(cr, f, co, us) := acc in let '(cr', f', co', us') := acc' in
  match last_value "creators" kvs with None => cr' = cr | Some v => exists x, e_parse_creators e v = Some x /\ cr' = Some (map unverify x) end /\
  match last_value "seller_fee_basis_points" kvs with None => f' = f | Some v => parse_u16 v = Some f' end /\
  match last_value "collection" kvs with None => co' = co | Some v => exists x, e_parse_collection e v = Some x /\ co' = Some x end /\
  match last_value "uses" kvs with None => us' = us | Some v => exists x, e_parse_uses e v = Some x /\ us' = Some x end.
Proof.
  induction kvs as [|[k v] r IH]; intros [[[cr f] co] us] [[[cr' f'] co'] us'] H.
  - cbn in *. injection H as <- <- <- <-. auto.
  - cbn [convert_fields] in H. apply bind_ok in H. destruct H as ([[[cr1 f1] co1] us1] & Hf & H). specialize (IH _ _ H). cbv beta iota in IH.
    destruct IH as (I1 & I2 & I3 & I4). cbn [last_value].
    unfold convert_field in Hf.
    destruct (String.eqb_spec k "creators") as [->|N1].
    { apply bind_ok in Hf; destruct Hf as (x & Hx & Hf); apply of_option_ok in Hx; injection Hf as <- <- <- <-. cbn [String.eqb Ascii.eqb Bool.eqb]. repeat split; auto.
      destruct (last_value "creators" r); [exact I1|]. eexists. split; [eassumption|]. rewrite I1. reflexivity. 
      all: match goal with |- match match ?z with _ => _ end with _ => _ end => destruct z; assumption end. }
    destruct (String.eqb_spec k "seller_fee_basis_points") as [->|N2].
    { apply bind_ok in Hf; destruct Hf as (x & Hx & Hf); apply of_option_ok in Hx; injection Hf as <- <- <- <-. cbn [String.eqb Ascii.eqb Bool.eqb]. repeat split; auto;
      match goal with |- match match ?z with _ => _ end with _ => _ end => destruct z; try assumption end. rewrite I2. assumption. }
    destruct (String.eqb_spec k "collection") as [->|N3].
    { apply bind_ok in Hf; destruct Hf as (x & Hx & Hf); apply of_option_ok in Hx; injection Hf as <- <- <- <-. cbn [String.eqb Ascii.eqb Bool.eqb]. repeat split; auto;
      match goal with |- match match ?z with _ => _ end with _ => _ end => destruct z; try assumption end. eexists. split; [eassumption|]. rewrite I3. reflexivity. }
    destruct (String.eqb_spec k "uses") as [->|N4].
    { apply bind_ok in Hf; destruct Hf as (x & Hx & Hf); apply of_option_ok in Hx; injection Hf as <- <- <- <-. cbn [String.eqb Ascii.eqb Bool.eqb]. repeat split; auto;
      match goal with |- match match ?z with _ => _ end with _ => _ end => destruct z; try assumption end. eexists. split; [eassumption|]. rewrite I4. reflexivity. }
    injection Hf as <- <- <- <-.
    repeat split; match goal with |- match match ?z with _ => _ end with _ => _ end => destruct z; assumption end.
Qed.
Lemma unverify_copies x : Forall2 unverified_copy x (map unverify x).
Proof. induction x; cbn; constructor; auto. repeat split. Qed.

Lemma field_value_last fields k v : field_value fields k v <-> last_value k fields = Some v.
Proof. rewrite last_value_split. reflexivity. Qed.
Lemma absent_last fields k : absent fields k <-> last_value k fields = None.
Proof. rewrite last_value_None. reflexivity. Qed.

Lemma convert_ok_l e t d : token_2022_metadata_to_metaplex e t = Ok d ->
  d2_name d = tm_name t /\ d2_symbol d = tm_symbol t /\ d2_uri d = tm_uri t /\
  (absent (tm_additional t) "seller_fee_basis_points" -> d2_sfbp d = 0) /\
  (forall v, field_value (tm_additional t) "seller_fee_basis_points" v -> numeral_u16 v (d2_sfbp d)) /\
  (absent (tm_additional t) "creators" -> d2_creators d = None) /\
  (forall v, field_value (tm_additional t) "creators" v ->
     exists cs cs', e_parse_creators e v = Some cs /\ d2_creators d = Some cs' /\ Forall2 unverified_copy cs cs') /\
  (absent (tm_additional t) "collection" -> d2_collection d = None) /\
  (forall v, field_value (tm_additional t) "collection" v -> exists x, e_parse_collection e v = Some x /\ d2_collection d = Some x) /\
  (absent (tm_additional t) "uses" -> d2_uses d = None) /\
  (forall v, field_value (tm_additional t) "uses" v -> exists x, e_parse_uses e v = Some x /\ d2_uses d = Some x).
Proof.
  unfold token_2022_metadata_to_metaplex. intro H. apply bind_ok in H. destruct H as ([[[cr f] co] us] & Hf & H). injection H as <-.
  apply convert_fields_ok in Hf. cbv beta iota in Hf. destruct Hf as (I1 & I2 & I3 & I4). cbn.
  setoid_rewrite field_value_last. setoid_rewrite absent_last.
  repeat split; auto; intros; match goal with X : last_value _ _ = _ |- _ => rewrite X in * end; auto.
  - apply parse_u16_numeral. exact I2.
  - destruct I1 as (x & A & ->). exists x, (map unverify x). split; [exact A|]. split; [reflexivity|]. apply unverify_copies.
Qed.

(** ** Round trip *)
Definition round_creators (o : option (list creator)) : option (list creator) :=
  match o with Some (c :: cs) => Some (map unverify (c :: cs)) | _ => None end.
Lemma unverify_twice c : map unverify (map unverify c) = map unverify c.
Proof. rewrite map_map. reflexivity. Qed.
Lemma round_trip_convert e u x : json_round_trips e x -> mx_sfbp x < 2 ^ 16 ->
  token_2022_metadata_to_metaplex e (from_metaplex e u x) =
  Ok (mkDataV2 (mx_name x) (mx_symbol x) (mx_uri x) (mx_sfbp x) (round_creators (mx_creators x)) (mx_collection x) (mx_uses x)).
Proof.
  intros (J1 & J2 & J3) Hf. apply show_dec_numeral in Hf. apply parse_u16_numeral in Hf.
  assert (K1 : forall cs, mx_creators x = Some cs -> e_parse_creators e (e_json_creators e (map unverify cs)) = Some (map unverify cs)).
  { intros cs H. eapply J1; [exact H|apply unverify_copies]. } clear J1.
  destruct x as [key ua mnt nm sy ur sf cr ps mut en ts co us cd pc]. cbn [mx_sfbp mx_creators mx_collection mx_uses] in *.
  unfold token_2022_metadata_to_metaplex, from_metaplex, extract_additional_metadata.
  cbn [mx_key mx_update_authority mx_mint mx_name mx_symbol mx_uri mx_sfbp mx_creators mx_primary_sale mx_is_mutable mx_edition_nonce mx_token_standard mx_collection mx_uses mx_collection_details mx_programmable_config tm_name tm_symbol tm_uri tm_additional].
  cbn [app convert_fields convert_field String.eqb Ascii.eqb Bool.eqb bind of_option]. rewrite Hf. cbn [of_option bind].
  destruct cr as [[|c cs]|]; try specialize (K1 _ eq_refl); destruct en, ts, co; try specialize (J2 _ eq_refl); destruct us; try specialize (J3 _ eq_refl); destruct cd, pc;
    cbn [opt_entry app convert_fields convert_field String.eqb Ascii.eqb Bool.eqb bind of_option];
    repeat (first [rewrite K1 | rewrite J2 | rewrite J3]; cbn [opt_entry app convert_fields convert_field String.eqb Ascii.eqb Bool.eqb bind of_option]);
    cbn [round_creators]; rewrite ?unverify_twice; reflexivity.
Qed.
Lemma round_trip_convert_l e u x : json_round_trips e x -> mx_sfbp x < 2 ^ 16 -> exists d,
  token_2022_metadata_to_metaplex e (from_metaplex e u x) = Ok d /\
  d2_name d = mx_name x /\ d2_symbol d = mx_symbol x /\ d2_uri d = mx_uri x /\ d2_sfbp d = mx_sfbp x /\
  d2_collection d = mx_collection x /\ d2_uses d = mx_uses x /\
  (mx_creators x = None \/ mx_creators x = Some [] -> d2_creators d = None) /\
  (forall cs, mx_creators x = Some cs -> cs <> [] -> exists cs', d2_creators d = Some cs' /\ Forall2 unverified_copy cs cs').
Proof.
  intros J H. eexists. split; [apply round_trip_convert; assumption|]. cbn. repeat split.
  - intros [-> | ->]; reflexivity.
  - intros cs -> N. destruct cs as [|c cs]; [congruence|]. eexists. split; [reflexivity|]. apply (unverify_copies (c :: cs)).
Qed.
