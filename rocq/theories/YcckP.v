(** The conversion for YCCK (C36). *)
From Verif Require Import Base Tactics SpecBits SpecColor Clamp Idct Color Types ColorP.

Lemma skipn_4S : forall (a b c e : Z) l i, skipn (4 * S i) (a :: b :: c :: e :: l) = skipn (4 * i) l.
Proof. intros. replace (4 * S i)%nat with (S (S (S (S (4 * i))))) by lia. reflexivity. Qed.
Lemma convert_ycck : forall dbg width data y cb cr ty tb tc, bytes y -> bytes cb -> bytes cr -> length data = (4 * width)%nat ->
  length y = width -> length cb = width -> length cr = width ->
  exists line, color_convert dbg CYcck data [line_of y ++ ty; line_of cb ++ tb; line_of cr ++ tc] = Ok line /\
    length line = (4 * width)%nat /\
    forall i, (i < width)%nat -> exists rgb, firstn 4 (skipn (4 * i) line) = rgb ++ [255 - nth (4 * i + 3) data 0] /\
      rgb_pixel (nth i y 0) (nth i cb 0) (nth i cr 0) rgb.
Proof.
  intros dbg. cbn [color_convert]. induction width as [|w IH]; intros data y cb cr ty tb tc A B C L La Lb Lc.
  - destruct data, y, cb, cr; try discriminate. exists []. split; [destruct ty, tb, tc; reflexivity|]. split; [reflexivity|]. intros i Hi. lia.
  - destruct y as [|y0 y], cb as [|b0 cb], cr as [|r0 cr]; try discriminate. do 4 (destruct data as [|? data]; [cbn in L; lia|]). inv A. inv B. inv C.
    destruct (IH data y cb cr ty tb tc) as (line & E & Ll & P); auto; try (cbn in *; lia).
    exists (sat (y0 + cr_to_r r0) :: sat (y0 + g_of b0 r0) :: sat (y0 + cb_to_b b0) :: (255 - z2) :: line). split; [|split].
    + cbn [line_of map app line_ycck read bind]. rewrite ycbcr_pixel by auto. cbn [bind]. unfold line_of in E. rewrite E. reflexivity.
    + cbn [length]. lia.
    + intros [|i] Hi.
      * exists (rgb_of y0 b0 r0). split; [reflexivity|]. cbn [nth]. apply rgb_of_pixel; auto.
      * rewrite skipn_4S. destruct (P i ltac:(lia)) as (rgb & E1 & E2). exists rgb. split; [|exact E2]. rewrite E1.
        replace (4 * S i + 3)%nat with (S (S (S (S (4 * i + 3))))) by lia. reflexivity.
Qed.
Lemma ycck_four : forall dbg t data a b c e, t <> AdobeUnknown ->
  exists f, choose_color_convert_func 4 (Some t) = Ok f /\ color_convert dbg f data [a; b; c; e] = Panic PAssert.
Proof. intros dbg t data a b c e T. exists CYcck. split; [destruct t; try reflexivity; congruence|reflexivity]. Qed.
