(** Files that bring everything they need, decoded one after the other (C95). *)
From Verif Require Import Base Tactics SpecBits SpecMarker SpecFrame SpecTables SpecHuffman SpecBlock SpecSegments SpecScan SpecGlobal SpecFile SpecAnswer SpecLimits SpecReuse SpecAgain Huffman Types Decode ParsersP FileP GlobalP TransP ReuseP ReuseP2.

(** ** What is retained *)
Lemma retained_none : forall l, sofs (retained l) = [].
Proof. induction l as [|[n s] l IH]; [reflexivity|]. destruct s; exact IH. Qed.
Lemma retained_dris : forall l, dris (retained l) = dris l.
Proof. induction l as [|[n s] l IH]; [reflexivity|]. destruct s; try exact IH. unfold dris in *. cbn [retained filter flat_map snd app] in *. f_equal. exact IH. Qed.
Lemma retained_adobes : forall l, adobes (retained l) = adobes l.
Proof. induction l as [|[n s] l IH]; [reflexivity|]. destruct s; try exact IH. unfold adobes in *. cbn [retained filter flat_map snd app] in *. f_equal. exact IH. Qed.
Lemma retained_forall : forall P l, Forall P l -> Forall P (retained l).
Proof. intros P l F. apply Forall_forall. intros s I. apply filter_In in I. rewrite Forall_forall in F. apply F, I. Qed.
Lemma bytes_flat : forall l, bytes (flat_map hseg_bytes l) <-> Forall (fun s => bytes (hseg_bytes s)) l.
Proof.
  unfold bytes. induction l as [|s l IH]; cbn [flat_map]; [split; constructor|]. rewrite Forall_app, IH, Forall_cons_iff. reflexivity.
Qed.

(** ** Earlier definitions are overridden *)
Lemma coding_later : forall a b c s t q, comp_coding b c s t q -> comp_coding (a ++ b) c s t q.
Proof.
  intros a b c s t q [X1 X2 X3 X4 [e5 [X5 Y5]] [e6 [X6 Y6]] [e7 [X7 Y7]]]. unfold dhts, dqts in *. constructor; auto; unfold dhts, dqts; rewrite flat_map_app.
  - exists e5. rewrite last_entry_app, X5. auto.
  - exists e6. rewrite last_entry_app, X6. auto.
  - exists e7. rewrite last_entry_app, X7. auto.
Qed.
Lemma codings_later : forall a b cs ss ts qs, comp_codings b cs ss ts qs -> comp_codings (a ++ b) cs ss ts qs.
Proof. intros a b cs ss ts qs H. induction H; constructor; auto using coding_later. Qed.

Lemma all_ok : forall files, Forall (encodes_with []) files -> Forall (fun s => hseg_ok (snd s) /\ bytes (hseg_bytes s)) (all_segs files).
Proof.
  intros files F. induction F as [|f files [En [[Po _] B]] F IH]; [constructor|]. unfold all_segs in *. cbn [flat_map app] in *. apply Forall_app. split; [|exact IH].
  unfold bytes_with, file_bytes, bytes in B. cbn [app] in B. rewrite !Forall_app in B. destruct B as [_ [B1 [_ [_ [_ [B2 _]]]]]]. apply bytes_flat in B1. apply bytes_flat in B2.
  pose proof (en_segs _ _ _ _ _ _ _ En) as Fs. cbn [app] in Fs. apply Forall_forall. intros s I. rewrite Forall_forall in Fs, Po, B1, B2. apply in_app_iff in I. destruct I as [I|I]; auto.
Qed.
Lemma encodes_later : forall files f, Forall (encodes_with []) files -> encodes_with [] f -> own_interval files f -> encodes_with (retained (all_segs files)) f.
Proof.
  intros files f F [En [Po B]] Ho. pose proof (retained_forall _ _ (all_ok files F)) as A. set (l := retained (all_segs files)) in *. split; [|split; [exact Po|]].
  - cbn [app] in En. destruct En as [E1 E2 E3 E4 E5 E6 E7 E8 E9]. constructor; auto.
    + apply Forall_app. split; [|exact E1]. eapply Forall_impl; [|exact A]. intros s H. apply H.
    + unfold sofs in *. rewrite flat_map_app, E2. unfold l. pose proof (retained_none (all_segs files)) as N. unfold sofs in N. rewrite N. reflexivity.
    + apply codings_later. exact E6.
    + replace (last (dris (l ++ cf_segs f)) 0) with (last (dris (cf_segs f)) 0); [exact E9|]. unfold dris at 2. rewrite flat_map_app, last_app. fold (dris l) (dris (cf_segs f)). unfold l. rewrite retained_dris.
      destruct Ho as [Ho|Ho]; [|rewrite Ho; reflexivity]. destruct (dris (cf_segs f)) as [|x r]; [congruence|]. apply last_any.
  - unfold bytes_with, file_bytes, bytes in *. cbn [app] in B. rewrite flat_map_app, !Forall_app in *. destruct B as [B1 [B2 B3]]. repeat split; try tauto.
    apply bytes_flat. eapply Forall_impl; [|exact A]. intros s H. apply H.
Qed.

Lemma series_of : forall files, Forall (encodes_with []) files -> (forall a f b, files = a ++ f :: b -> own_interval a f) -> series [] files.
Proof.
  intros files F H. assert (X : forall b a, files = a ++ b -> series a b).
  { induction b as [|f b IH]; intros a E; [exact Logic.I|]. cbn [series]. split.
    - subst files. apply Forall_app in F. destruct F as [F1 F2]. inv F2. apply encodes_later; auto. eapply H. reflexivity.
    - apply IH. rewrite <- app_assoc. exact E. }
  apply X. reflexivity.
Qed.

Lemma again_any : forall dbg rayon files f, Forall (encodes_with []) (files ++ [f]) ->
  (forall a g b, files ++ [f] = a ++ g :: b -> own_interval a g) -> own_transform files f ->
  snd (decode dbg rayon (decoder_after dbg rayon (map coded_bytes files)) (coded_bytes f)) = decode_fresh dbg rayon (coded_bytes f).
Proof.
  intros dbg rayon files f F H T. rewrite (series_answer dbg rayon files f (series_of _ F H)).
  pose proof (H files f [] eq_refl) as Ho. apply Forall_app in F. destruct F as [F Ff]. apply Forall_cons_iff in Ff. destruct Ff as [E _].
  destruct (encodes_later files f F E Ho) as [En' [_ B']]. destruct E as [En [Po B]].
  unfold coded_bytes. unfold bytes_with in *. cbn [app] in *.
  apply (same_answer dbg rayon (cf_segs f) (cf_h f) (cf_fill1 f) (cf_fill2 f) (cf_ss f) (cf_ts f) (cf_data f) (cf_post f) (cf_fill3 f) _ (cf_h f) (cf_fill1 f) (cf_fill2 f) (cf_ss f) (cf_ts f) (cf_data f) (cf_post f) (cf_fill3 f) (cf_qs f) (cf_ms f) En En' Po Po eq_refl eq_refl eq_refl); auto.
  rewrite <- app_assoc. unfold last_transform. unfold adobes at 1. rewrite flat_map_app. fold (adobes (cf_segs f ++ cf_post f)) (adobes (retained (all_segs files))). rewrite retained_adobes, map_app, last_app.
  destruct T as [T|T]; [|rewrite T; reflexivity]. destruct (adobes (cf_segs f ++ cf_post f)) as [|x r]; [congruence|]. cbn [map]. apply last_any.
Qed.

Lemma repeat_before : forall (f : coded) n a g b, repeat f n = a ++ g :: b -> g = f /\ a = repeat f (length a).
Proof.
  intros f n a g b E. assert (X : forall x, In x (a ++ g :: b) -> x = f) by (intros x I; rewrite <- E in I; apply repeat_spec in I; exact I).
  split; [apply X, in_app_iff; right; left; reflexivity|]. clear E. induction a as [|x a IH]; [reflexivity|]. cbn [length repeat]. f_equal; [apply X; left; reflexivity|]. apply IH. intros y I. apply X. right. exact I.
Qed.
Lemma dris_repeat : forall f n, dris (cf_segs f) = [] -> last (dris (cf_post f)) 0 = 0 -> last (dris (all_segs (repeat f n))) 0 = 0.
Proof.
  intros f n E1 E2. induction n as [|n IH]; [reflexivity|]. cbn [repeat]. unfold all_segs in *. cbn [flat_map]. unfold dris in *. rewrite !flat_map_app, !last_app, E1. cbn [last].
  destruct (flat_map _ (flat_map _ (repeat f n))) as [|x r]; [exact E2|]. cbn [app] in *. rewrite <- IH. apply last_any.
Qed.
Lemma adobes_repeat : forall f n, adobes (cf_segs f ++ cf_post f) = [] -> adobes (all_segs (repeat f n)) = [].
Proof.
  intros f n E. induction n as [|n IH]; [reflexivity|]. cbn [repeat]. unfold all_segs in *. cbn [flat_map]. unfold adobes in *. rewrite flat_map_app, E, IH. reflexivity.
Qed.
Lemma again_repeat : forall dbg rayon n f, encodes_with [] f -> dris (cf_segs f) <> [] \/ last (dris (cf_post f)) 0 = 0 ->
  snd (decode dbg rayon (decoder_after dbg rayon (repeat (coded_bytes f) n)) (coded_bytes f)) = decode_fresh dbg rayon (coded_bytes f).
Proof.
  intros dbg rayon n f E S1. replace (repeat (coded_bytes f) n) with (map coded_bytes (repeat f n)) by (induction n; cbn [repeat map]; congruence).
  assert (Es : repeat f n ++ [f] = repeat f (S n)) by (rewrite <- repeat_cons; reflexivity). apply again_any.
  - rewrite Es. apply Forall_forall. intros g I. apply repeat_spec in I. subst. exact E.
  - rewrite Es. intros a g b Eb. destruct (repeat_before f _ _ _ _ Eb) as [-> ->]. unfold own_interval. destruct (dris (cf_segs f)) as [|x r] eqn:Ed; [|left; discriminate]. right. destruct S1 as [S1|S1]; [congruence|]. apply dris_repeat; assumption.
  - unfold own_transform. destruct (adobes (cf_segs f ++ cf_post f)) as [|x r] eqn:Ea; [right; apply adobes_repeat; exact Ea|left; discriminate].
Qed.
