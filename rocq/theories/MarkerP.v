From Verif Require Import Base Tactics Marker SpecMarker SpecBits.

Lemma marker_of_byte_code : forall b m, marker_of_byte b = Some m <-> code_of m b.
Proof.
  intros b m. split; intros H.
  - unfold marker_of_byte in H.
    repeat match type of H with
           | (if ?c then _ else _) = _ => let E := fresh in destruct c eqn:E
           end; inv H;
    try (match goal with E : (b =? ?k) = true |- _ => assert (b = k) by lia; subst b; constructor end).
    + replace b with (0xC0 + (b - 192)) at 2 by lia. constructor. lia.
    + replace b with (0xD0 + (b - 208)) at 2 by lia. constructor. lia.
    + replace b with (0xE0 + (b - 224)) at 2 by lia. constructor. lia.
  - inv H; try reflexivity; unfold marker_of_byte.
    + replace (192 + n =? 216) with false by lia.
      replace ((192 <=? 192 + n) && (192 + n <=? 194)) with true by lia. do 2 f_equal. lia.
    + replace (208 + n =? 216) with false by lia.
      replace ((192 <=? 208 + n) && (208 + n <=? 194)) with false by lia.
      replace (208 + n =? 196) with false by lia. replace (208 + n =? 219) with false by lia.
      replace (208 + n =? 221) with false by lia. replace (208 + n =? 218) with false by lia.
      replace ((208 <=? 208 + n) && (208 + n <=? 215)) with true by lia. do 2 f_equal. lia.
    + replace (224 + n =? 216) with false by lia.
      replace ((192 <=? 224 + n) && (224 + n <=? 194)) with false by lia.
      replace (224 + n =? 196) with false by lia. replace (224 + n =? 219) with false by lia.
      replace (224 + n =? 221) with false by lia. replace (224 + n =? 218) with false by lia.
      replace ((208 <=? 224 + n) && (224 + n <=? 215)) with false by lia.
      replace ((224 <=? 224 + n) && (224 + n <=? 239)) with true by lia. do 2 f_equal. lia.
Qed.

Lemma scan_FF : forall k seen r, marker_scan seen (FF (S k) ++ r) = marker_scan true r.
Proof.
  induction k; intros; cbn [FF repeat app marker_scan]; change (255 =? 255) with true; cbn iota; auto.
  apply (IHk true r).
Qed.

Lemma scan_no_marker : forall pre, no_marker pre -> forall r, marker_scan false (pre ++ r) = marker_scan false r.
Proof.
  induction 1; intros; auto.
  - cbn [app marker_scan]. replace (b =? 255) with false by lia. auto.
  - rewrite <- app_assoc, scan_FF. cbn [app marker_scan]. change (0 =? 255) with false.
    change (0 =? 0) with true. cbn iota. auto.
Qed.

(** Every input falls in one of the two shapes. *)
Lemma scan_cases : forall input,
  (exists c rest, first_marker input c rest) \/ without_marker input.
Proof.
  intros input.
  assert (G : forall input,
    (forall k, (exists c rest, first_marker (FF (S k) ++ input) c rest) \/ without_marker (FF (S k) ++ input)) /\
    ((exists c rest, first_marker input c rest) \/ without_marker input)).
  { clear input. induction input as [|b r [IHs IHn]].
    - split.
      + intros k. right. exists [], (S k). rewrite app_nil_r. split; [constructor|reflexivity].
      + right. exists [], 0%nat. split; [constructor|reflexivity].
    - destruct (Z.eq_dec b 255) as [->|N].
      + split; [|apply (IHs 0%nat)].
        intros k. specialize (IHs (S k)).
        replace (FF (S k) ++ 255 :: r) with (FF (S (S k)) ++ r); auto.
        unfold FF. change (255 :: r) with ([255] ++ r). rewrite app_assoc. f_equal.
        change [255] with (repeat 255 1). rewrite <- repeat_app. f_equal. lia.
      + split.
        * intros k. destruct (Z.eq_dec b 0) as [->|N0].
          -- destruct IHn as [[c [rest [pre [k' [H1 [H2 [H3 H4]]]]]]]|[pre [k' [H1 H2]]]].
             ++ left. exists c, rest, (FF (S k) ++ 0 :: pre), k'. split; [apply nm_stuffed; auto|].
                split; auto. split; auto. rewrite H4, <- app_assoc. reflexivity.
             ++ right. exists (FF (S k) ++ 0 :: pre), k'. split; [apply nm_stuffed; auto|].
                rewrite H2, <- app_assoc. reflexivity.
          -- left. exists b, r, [], k. split; [constructor|]. auto.
        * destruct IHn as [[c [rest [pre [k' [H1 [H2 [H3 H4]]]]]]]|[pre [k' [H1 H2]]]].
          -- left. exists c, rest, (b :: pre), k'. split; [constructor; auto|].
             split; auto. split; auto. rewrite H4. reflexivity.
          -- right. exists (b :: pre), k'. split; [constructor; auto|]. rewrite H2. reflexivity. }
  apply G.
Qed.

Lemma parse_first : forall input c rest, first_marker input c rest ->
  parse_marker input = match marker_of_byte c with Some m => Ok (m, rest) | None => Fail EMarker end.
Proof.
  intros input c rest [pre [k [Hp [H0 [H255 ->]]]]]. unfold parse_marker.
  rewrite scan_no_marker by auto. rewrite scan_FF. cbn [marker_scan].
  replace (c =? 255) with false by lia. replace (c =? 0) with false by lia. reflexivity.
Qed.

Lemma parse_without : forall input, without_marker input -> parse_marker input = Fail EEof.
Proof.
  intros input [pre [k [Hp ->]]]. unfold parse_marker. rewrite scan_no_marker by auto.
  destruct k; auto. rewrite <- (app_nil_r (FF (S k))). rewrite scan_FF. reflexivity.
Qed.

Lemma parse_marker_ok : forall input m rest,
  parse_marker input = Ok (m, rest) <-> exists c, code_of m c /\ first_marker input c rest.
Proof.
  intros. split.
  - intros H. destruct (scan_cases input) as [[c [rest' F]]|W].
    + pose proof (parse_first _ _ _ F) as P. rewrite H in P.
      destruct (marker_of_byte c) eqn:E; inv P. exists c. split; auto. apply marker_of_byte_code. auto.
    + rewrite (parse_without _ W) in H. discriminate.
  - intros [c [Hc F]]. rewrite (parse_first _ _ _ F). apply marker_of_byte_code in Hc. rewrite Hc. reflexivity.
Qed.

Lemma parse_marker_unknown : forall input,
  parse_marker input = Fail EMarker <-> exists c rest, first_marker input c rest /\ forall m, ~ code_of m c.
Proof.
  intros. split.
  - intros H. destruct (scan_cases input) as [[c [rest' F]]|W].
    + pose proof (parse_first _ _ _ F) as P. rewrite H in P.
      destruct (marker_of_byte c) eqn:E; inv P. exists c, rest'. split; auto.
      intros m Hm. apply marker_of_byte_code in Hm. congruence.
    + rewrite (parse_without _ W) in H. discriminate.
  - intros [c [rest [F Hc]]]. rewrite (parse_first _ _ _ F).
    destruct (marker_of_byte c) eqn:E; auto. apply marker_of_byte_code in E. elim (Hc _ E).
Qed.

Lemma parse_marker_eof : forall input, parse_marker input = Fail EEof <-> without_marker input.
Proof.
  intros. split; [|apply parse_without].
  intros H. destruct (scan_cases input) as [[c [rest' F]]|W]; auto.
  rewrite (parse_first _ _ _ F) in H. destruct (marker_of_byte c); discriminate.
Qed.

Lemma parse_marker_total : forall input,
  (exists m rest, parse_marker input = Ok (m, rest)) \/ parse_marker input = Fail EMarker \/ parse_marker input = Fail EEof.
Proof.
  intros. destruct (scan_cases input) as [[c [rest' F]]|W].
  - rewrite (parse_first _ _ _ F). destruct (marker_of_byte c); eauto.
  - rewrite (parse_without _ W). auto.
Qed.

(** The marker found does not depend on where inside stuffed data the search starts. *)
Lemma no_marker_stuff : forall ds, no_marker (stuff ds).
Proof.
  induction ds as [|d ds IH]; [constructor|].
  change (stuff (d :: ds)) with ((if d =? 255 then [255; 0] else [d]) ++ stuff ds).
  destruct (d =? 255) eqn:E.
  - apply (nm_stuffed 0). auto.
  - constructor; auto. lia.
Qed.

Lemma parse_marker_stuff : forall ds r, parse_marker (stuff ds ++ r) = parse_marker r.
Proof. intros. apply scan_no_marker, no_marker_stuff. Qed.

Lemma parse_marker_len : forall input m rest, parse_marker input = Ok (m, rest) ->
  (length rest + 2 <= length input)%nat.
Proof.
  intros input m rest H. apply parse_marker_ok in H. destruct H as [c [_ [pre [k [_ [_ [_ ->]]]]]]].
  rewrite !app_length. unfold FF. rewrite repeat_length. cbn [length]. lia.
Qed.
