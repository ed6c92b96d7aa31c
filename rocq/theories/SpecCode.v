(** A reference reading of the entropy-coded data of a sequential scan (T.81 F.2.2, E.2.4).
    It works on the plain list of bits of a restart interval, one code and one number at a
    time, without a bit buffer, lookup tables or shortcuts, and independently of the decoder
    (C63). *)
From Verif Require Import Base SpecBits SpecHuffman SpecBlock SpecSegments SpecScan.

Section Bits.
  (** Whether zero bits follow the end of the data. *)
  Variable zeros : bool.

  (** The next [n] bits, and what follows them. *)
  Definition get (n : nat) (bits : list bool) : option (list bool * list bool) :=
    if zeros || (n <=? length bits)%nat then Some (firstn n (bits ++ repeat false n), skipn n bits) else None.

  (** The symbol whose code comes next (F.2.2.3); none if no code does. *)
  Definition starts_with (c bits : list bool) : bool :=
    match get (length c) bits with
    | Some (x, _) => if list_eq_dec Bool.bool_dec x c then true else false
    | None => false
    end.
  Definition next_symbol (counts values : list Z) (bits : list bool) : option (Z * list bool) :=
    match find (fun e => starts_with (fst e) bits) (combine (canonical counts) values) with
    | Some (c, s) => Some (s, skipn (length c) bits)
    | None => None
    end.
  (** The signed number in the next [n] bits (F.2.2.1). *)
  Definition next_value (n : Z) (bits : list bool) : option (Z * list bool) :=
    match get (Z.to_nat n) bits with
    | Some (x, rest) => Some (EXTEND (of_bits x) n, rest)
    | None => None
    end.

  (** The DC difference: at most 11 bits. *)
  Definition ref_diff (t : tables) (bits : list bool) : option (Z * list bool) :=
    match next_symbol (dc_counts t) (dc_values t) bits with
    | None => None
    | Some (s, rest) => if s =? 0 then Some (0, rest) else if 11 <? s then None else next_value s rest
    end.

  (** The [n] AC coefficients that are still missing, in zigzag order, and the number of
      further blocks that end without being coded (only EOBn with n > 0 leaves one).  A run
      that passes the end of the block is cut there. *)
  Definition cut (n : nat) (l : list Z) (o : option (list Z * Z * list bool)) : option (list Z * Z * list bool) :=
    match o with Some (vs, run, rest) => Some (firstn n (l ++ vs), run, rest) | None => None end.
  Fixpoint ref_ac (t : tables) (fuel n : nat) (bits : list bool) : option (list Z * Z * list bool) :=
    match fuel with
    | O => None
    | S fuel =>
        if (n =? 0)%nat then Some ([], 0, bits)
        else
          match next_symbol (ac_counts t) (ac_values t) bits with
          | None => None
          | Some (sym, bits) =>
              let r := sym / 16 in let s := sym mod 16 in
              if s =? 0 then
                if r =? 15 then cut n (repeat 0 16) (ref_ac t fuel (n - 16) bits)          (* ZRL *)
                else match get (Z.to_nat r) bits with                                      (* EOBr *)
                     | Some (x, bits) => Some (repeat 0 n, 2 ^ r - 1 + of_bits x, bits)
                     | None => None
                     end
              else
                match next_value s bits with
                | Some (v, bits) => cut n (repeat 0 (Z.to_nat r) ++ [v]) (ref_ac t fuel (n - (Z.to_nat r + 1)) bits)
                | None => None
                end
          end
    end.

  (** A block, when [run] blocks still end without being coded and the previous DC value of
      the component is [pred]. *)
  Definition ref_block (t : tables) (run pred : Z) (bits : list bool) : option (qblock * Z * list bool) :=
    match ref_diff t bits with
    | None => None
    | Some (diff, bits) =>
        let dc := int16 (pred + diff) in
        if 0 <? run then Some (mkQ dc (repeat 0 63), run - 1, bits)
        else match ref_ac t 64 63 bits with
             | Some (ac, run, bits) => Some (mkQ dc ac, run, bits)
             | None => None
             end
    end.

  (** [n] blocks of a component. *)
  Fixpoint ref_blocks (t : tables) (n : nat) (run pred : Z) (bits : list bool) : option (list qblock * Z * Z * list bool) :=
    match n with
    | O => Some ([], run, pred, bits)
    | S n =>
        match ref_block t run pred bits with
        | None => None
        | Some (q, run, bits) =>
            match ref_blocks t n run (q_dc q) bits with
            | Some (qs, run, pred, bits) => Some (q :: qs, run, pred, bits)
            | None => None
            end
        end
    end.

  (** An MCU: h * v blocks of every component; the previous DC values are in [ps]. *)
  Fixpoint ref_mcu (cs : list comp_spec) (ts : list tables) (run : Z) (ps : list Z) (bits : list bool)
    : option (mcu * Z * list Z * list bool) :=
    match cs, ts, ps with
    | c :: cs, t :: ts, p :: ps =>
        match ref_blocks t (Z.to_nat (cs_h c * cs_v c)) run p bits with
        | None => None
        | Some (qs, run, p, bits) =>
            match ref_mcu cs ts run ps bits with
            | Some (m, run, ps, bits) => Some (qs :: m, run, p :: ps, bits)
            | None => None
            end
        end
    | _, _, _ => Some ([], run, ps, bits)
    end.

  (** [n] MCUs. *)
  Fixpoint ref_mcus (cs : list comp_spec) (ts : list tables) (n : nat) (run : Z) (ps : list Z) (bits : list bool) : option (list mcu) :=
    match n with
    | O => Some []
    | S n =>
        match ref_mcu cs ts run ps bits with
        | None => None
        | Some (m, run, ps, bits) =>
            match ref_mcus cs ts n run ps bits with Some ms => Some (m :: ms) | None => None end
        end
    end.
End Bits.

(** ** Restart intervals *)
(** Zero bits follow the data if none of the last seven bytes is 0xFF (see C12 for what the
    reader delivers otherwise; then only what is in the data counts). *)
Definition ends_clean (ds : list Z) : bool := forallb (fun d => negb (d =? 255)) (skipn (length ds - 7) ds).
(** The [n] MCUs of a restart interval with data bytes [ds]: previous DC values 0, and no
    block ends without being coded. *)
Definition ref_interval (cs : list comp_spec) (ts : list tables) (n : nat) (ds : list Z) : option (list mcu) :=
  ref_mcus (ends_clean ds) cs ts n 0 (map (fun _ => 0) ts) (bits_of ds).

(** The [N] MCUs of a scan with restart interval [r]: the first interval has the data [ds],
    the next ones follow with the number of the RSTn marker in front of each.  The first
    marker must be RSTn with the given [n]; intervals after the last MCU do not matter. *)
Fixpoint ref_scan (cs : list comp_spec) (ts : list tables) (r n N : Z) (ds : list Z) (more : list (Z * list Z)) : option (list mcu) :=
  if (r =? 0) || (N <=? r) then ref_interval cs ts (Z.to_nat N) ds
  else
    match ref_interval cs ts (Z.to_nat r) ds, more with
    | Some ms, (m, ds') :: more' =>
        if m =? n then
          match ref_scan cs ts r ((n + 1) mod 8) (N - r) ds' more' with
          | Some rest => Some (ms ++ rest)
          | None => None
          end
        else None
    | _, _ => None
    end.

(** The data as it is written: stuffed, with the markers between the intervals. *)
Definition rst_bytes (p : Z * list Z) : list Z := [255; 0xD0 + fst p] ++ stuff (snd p).
Definition scan_bytes (ds : list Z) (more : list (Z * list Z)) : list Z := stuff ds ++ flat_map rst_bytes more.
Definition more_ok (more : list (Z * list Z)) : Prop := Forall (fun p => 0 <= fst p <= 7 /\ bytes (snd p)) more.

(** Code lengths that leave room for every code (C.2). *)
Definition codes_ok (t : tables) : Prop :=
  (counts_ok (dc_counts t) /\ kraft (dc_counts t) <= 2 ^ 16) /\ (counts_ok (ac_counts t) /\ kraft (ac_counts t) <= 2 ^ 16).
