(** C23: finding the next marker. *)
From Verif Require Import Base Marker SpecMarker MarkerP.

(** The marker returned is the first one: everything before it is data without markers, and
    the rest starts right after its code byte. *)
Theorem C23_first_marker :
  forall input m rest,
    parse_marker input = Ok (m, rest) <-> exists c, code_of m c /\ first_marker input c rest.
Proof. exact parse_marker_ok. Qed.
Print Assumptions C23_first_marker.

Theorem C23_unknown_marker :
  forall input,
    parse_marker input = Fail EMarker <->
    exists c rest, first_marker input c rest /\ forall m, ~ code_of m c.
Proof. exact parse_marker_unknown. Qed.
Print Assumptions C23_unknown_marker.

Theorem C23_no_marker :
  forall input, parse_marker input = Fail EEof <-> without_marker input.
Proof. exact parse_marker_eof. Qed.
Print Assumptions C23_no_marker.

Theorem C23_total :
  forall input,
    (exists m rest, parse_marker input = Ok (m, rest)) \/
    parse_marker input = Fail EMarker \/ parse_marker input = Fail EEof.
Proof. exact parse_marker_total. Qed.
Print Assumptions C23_total.

Example C23_case :
  parse_marker [1; 2; 255; 255; 0; 3; 255; 0; 255; 255; 219; 9; 9] = Ok (DQT, [9; 9]) /\
  parse_marker [1; 255; 1; 7] = Fail EMarker /\ parse_marker [7; 255; 0; 255] = Fail EEof.
Proof. vm_compute. repeat split. Qed.
