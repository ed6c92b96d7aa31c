(** Vocabulary for decoding files that bring everything they need (C95). *)
From Verif Require Import Base SpecFrame SpecSegments SpecScan SpecFile SpecReuse.

(** The file sets the restart interval in its header, or the last one set before it was 0 (or
    none was set). *)
Definition own_interval (before : list coded) (f : coded) : Prop := dris (cf_segs f) <> [] \/ last (dris (all_segs before)) 0 = 0.
(** The file has an Adobe segment (with the colour transform), in front of its scan or behind it,
    or there was none before it. *)
Definition own_transform (before : list coded) (f : coded) : Prop := adobes (cf_segs f ++ cf_post f) <> [] \/ adobes (all_segs before) = [].
