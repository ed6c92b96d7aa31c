(** Model of src/marker.rs. *)
From Verif Require Import Base.

(** marker.rs:14-33 [Marker]. *)
Inductive marker :=
| SOI | SOF (n : Z) | DHT | DQT | DRI | SOS | RST (n : Z) | APP (n : Z) | COM | EOI.

(** marker.rs:72-86: the byte after the 0xFF run. *)
Definition marker_of_byte (b : Z) : option marker :=
  if b =? 216 then Some SOI                                       (* 0xD8 *)
  else if (192 <=? b) && (b <=? 194) then Some (SOF (b - 192))    (* 0xC0..=0xC2 *)
  else if b =? 196 then Some DHT                                  (* 0xC4 *)
  else if b =? 219 then Some DQT                                  (* 0xDB *)
  else if b =? 221 then Some DRI                                  (* 0xDD *)
  else if b =? 218 then Some SOS                                  (* 0xDA *)
  else if (208 <=? b) && (b <=? 215) then Some (RST (b - 208))    (* 0xD0..=0xD7 *)
  else if (224 <=? b) && (b <=? 239) then Some (APP (b - 224))    (* 0xE0..=0xEF *)
  else if b =? 217 then Some EOI                                  (* 0xD9 *)
  else if b =? 254 then Some COM                                  (* 0xFE *)
  else None.

(** marker.rs:57-90 [marker()]: [sep_by1((take_until_byte(0xFF), take_while1(0xFF)),
    byte(0x00)).with(satisfy_map(..))].  [seen] is true once the run of 0xFF bytes of the
    current [take_while1] has begun.  A 0x00 after the run is the separator and restarts
    the search; any other byte goes to [satisfy_map].  Running out of bytes anywhere is an
    unexpected end of input, both for complete and for partial streams. *)
Fixpoint marker_scan (seen : bool) (input : list Z) : out (marker * list Z) :=
  match input with
  | [] => Fail EEof
  | b :: r =>
      if b =? 255 then marker_scan true r
      else if seen then
        if b =? 0 then marker_scan false r
        else match marker_of_byte b with
             | Some m => Ok (m, r)
             | None => Fail EMarker
             end
      else marker_scan false r
  end.

Definition parse_marker (input : list Z) : out (marker * list Z) := marker_scan false input.
