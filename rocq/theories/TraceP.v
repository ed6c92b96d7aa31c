(** Checking the hypotheses about a concrete file by computation. *)
From Verif Require Import Base Tactics Biterator Huffman Marker Types Decode SpecGlobal SpecStream.

Fixpoint trace (dbg rayon : bool) (fuel : nat) (p : pc) (d : decoder) (b : biter) : list decoder :=
  d :: match fuel with
       | O => []
       | S n => match step dbg false rayon p d b with (d', b', SNext p') => trace dbg rayon n p' d' b' | _ => [] end
       end.

Lemma from_cases : forall dbg rayon p d b c, from dbg false rayon (p, d, b) c ->
  c = (p, d, b) \/ exists p' d' b', step dbg false rayon p d b = (d', b', SNext p') /\ from dbg false rayon (p', d', b') c.
Proof.
  intros dbg rayon p d b c F. remember (p, d, b) as c0 eqn:E0. induction F as [|c1 c2 F IH M]; [left; reflexivity|right]. subst c0.
  destruct IH as [->|[p' [d' [b' [S F']]]]].
  - destruct c2 as [[p2 d2] b2]. cbn [moves] in M. exists p2, d2, b2. split; [exact M|apply from_here].
  - exists p', d', b'. split; [exact S|]. eapply from_next; eauto.
Qed.

Lemma trace_in : forall dbg rayon fuel p d b, snd (run dbg false rayon fuel p d b) <> RPanic PFuel ->
  forall q e c, from dbg false rayon (p, d, b) (q, e, c) -> In e (trace dbg rayon fuel p d b).
Proof.
  intros dbg rayon. induction fuel as [|fuel IH]; intros p d b N q e c F; [exfalso; apply N; reflexivity|].
  apply from_cases in F. destruct F as [F|[p' [d' [b' [S F]]]]].
  - inv F. left. reflexivity.
  - cbn [run trace] in *. rewrite S in *. right. eapply IH; eauto.
Qed.

Definition passes_list (dbg rayon : bool) (input : list Z) : list decoder :=
  trace dbg rayon (run_fuel (biter_new input)) PcMarker decoder_default (biter_new input).
Lemma passes_in : forall dbg rayon input, (forall p, snd (decode dbg rayon decoder_default input) <> Panic p) ->
  forall d, passes dbg rayon input d -> In d (passes_list dbg rayon input).
Proof.
  intros dbg rayon input N d [p [b F]]. eapply trace_in; [|exact F]. intros E. apply (N PFuel). unfold decode. cbv zeta.
  destruct (run dbg false rayon (run_fuel (biter_new input)) PcMarker decoder_default (biter_new input)) as [[d' b'] r]. cbn in E. subst r. reflexivity.
Qed.

(** Symbols a table can produce. *)
Definition symbol_ok (v : Z) : bool := negb ((Z.land v 15 =? 0) && (0 <? Z.shiftr v 4) && negb (Z.shiftr v 4 =? 15)).
Definition table_ok (t : ac_table) : bool :=
  forallb symbol_ok (t_values (ac_table_base t)) && forallb (fun e => symbol_ok (fst e)) (t_lut (ac_table_base t)).
Definition tables_ok (d : decoder) : bool := forallb (fun o => match o with Some t => table_ok t | None => true end) (d_ac d).

Lemma index_in : forall A (l : list A) i x, index l i = Ok x -> In x l.
Proof. intros A l i x E. apply index_Ok in E. destruct E as [_ E]. apply nth_error_In in E. exact E. Qed.

Lemma tables_ok_sound : forall d, tables_ok d = true -> ~ has_eob_runs d.
Proof.
  intros d T [dbg [t [b [v [b' [I [E [R1 [R2 R3]]]]]]]]]. unfold tables_ok in T. rewrite forallb_forall in T. specialize (T _ I). cbn beta iota in T.
  unfold table_ok in T. apply andb_prop in T. destruct T as [T1 T2]. rewrite forallb_forall in T1, T2.
  assert (S : symbol_ok v = true).
  { unfold decode_fast_ac in E. destruct (ensure16 b) as [[|] b1]; [|discriminate]. binv E. binv E. destruct a0 as [value rs].
    destruct (negb (rs =? 0)); cbv zeta in E; binv E; [discriminate|]. destruct a0 as [[w|] b2]; [|discriminate]. inv E.
    unfold decode_inner in E2. binv E2. destruct a0 as [value0 size]. destruct (0 <? size).
    - binv E2. inv E2. apply index_in in E. apply (T2 _ E).
    - binv E2. clear - E2 T1. revert b1 E2. generalize 8%nat LUT_BITS. induction n as [|n IH]; intros i b1 H; cbn [search_code] in H; [discriminate|].
      apply bind_ok in H. destruct H as [mc [_ H]]. destruct (Z.shiftr _ (15 - i) <=? mc); [|eapply IH; exact H].
      apply bind_ok in H. destruct H as [b3 [_ H]]. apply bind_ok in H. destruct H as [vo [_ H]]. apply bind_ok in H. destruct H as [w [E H]].
      inv H. apply index_in in E. apply T1. exact E. }
  unfold symbol_ok in S. destruct (Z.land v 15 =? 0) eqn:A1; [|lia]. destruct (0 <? Z.shiftr v 4) eqn:A2; [|lia]. destruct (Z.shiftr v 4 =? 15) eqn:A3; [lia|discriminate].
Qed.

Lemma no_eob_runs_check : forall dbg rayon input img, decode_fresh dbg rayon input = Ok img ->
  forallb tables_ok (passes_list dbg rayon input) = true -> no_eob_runs dbg rayon input.
Proof.
  intros dbg rayon input img E F d P. apply tables_ok_sound. rewrite forallb_forall in F. apply F. eapply passes_in; [|exact P].
  intros p H. unfold decode_fresh in E. congruence.
Qed.
Lemma no_restarts_check : forall dbg rayon input img, decode_fresh dbg rayon input = Ok img ->
  forallb (fun d => d_restart d =? 0) (passes_list dbg rayon input) = true -> no_restarts dbg rayon input.
Proof.
  intros dbg rayon input img E F d P. rewrite forallb_forall in F. apply Z.eqb_eq. apply F. eapply passes_in; [|exact P].
  intros p H. unfold decode_fresh in E. congruence.
Qed.
