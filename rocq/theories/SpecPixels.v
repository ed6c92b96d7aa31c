(** What a decoder remembers apart from pixels. *)
From Verif Require Import Base Types.

(** The decoders agree on all settings: frame, scan, tables, colour transform, restart
    interval and the record of finished coefficients.  The planes of the last image and the
    scratch state of the last scan may differ. *)
Definition same_settings (d d' : decoder) : Prop :=
  d_frame d = d_frame d' /\ d_scan d = d_scan d' /\ d_ac d = d_ac d' /\ d_dc d = d_dc d' /\
  d_qt d = d_qt d' /\ d_color d = d_color d' /\ d_restart d = d_restart d' /\
  d_finished d = d_finished d'.
