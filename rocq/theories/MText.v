(** Text conversions of the C and C++ standard libraries that the archives use: decimal and
    hexadecimal integers, "%f" output and floating-point input, word splitting.

    These are models of the C library as documented, not of code in the repository; every
    use is cited where it occurs. *)

From Verif Require Import MBase.
Local Open Scope N_scope.

(** ** Characters *)
(** [std::isspace] in the "C" locale. *)
Definition is_ws (c : byte) : bool :=
  beq c x20 || ((9 <=? b2n c) && (b2n c <=? 13)).
Definition is_digit (c : byte) : bool := (48 <=? b2n c) && (b2n c <=? 57).
Definition digit_val (c : byte) : N := b2n c - 48.
Definition digit_chr (d : N) : byte := n2b (48 + d).
Fixpoint take_while (p : byte -> bool) (s : bytes) : bytes :=
  match s with
  | [] => []
  | c :: s' => if p c then c :: take_while p s' else []
  end.
Fixpoint drop_while (p : byte -> bool) (s : bytes) : bytes :=
  match s with
  | [] => []
  | c :: s' => if p c then drop_while p s' else s
  end.
(** What [strlen] and "%s" see of a buffer. *)
Definition cstr (s : bytes) : bytes := take_while (fun c => negb (beq c x00)) s.

(** ** Integers *)
(** [std::to_chars], "%d" of a non-negative number. *)
Fixpoint dec_go (fuel : nat) (n : N) (acc : bytes) : bytes :=
  match fuel with
  | O => acc
  | S f =>
      let acc' := digit_chr (n mod 10) :: acc in
      if n <? 10 then acc' else dec_go f (n / 10) acc'
  end.
Definition dec (n : N) : bytes := dec_go (S (N.to_nat (N.size n))) n [].
(** "%d" *)
Definition decz (z : Z) : bytes :=
  if (z <? 0)%Z then x2d :: dec (Z.to_N (- z)) else dec (Z.to_N z).
(** The value of a run of digits. *)
Definition digits_val (s : bytes) : N := fold_left (fun a c => 10 * a + digit_val c) s 0.

(** [strtol]-like scanning: leading white space, an optional sign, digits.  [None]: no
    conversion. *)
Definition scan_sign (s : bytes) : bool * bytes :=
  match s with
  | c :: s' => if beq c x2d then (true, s') else if beq c x2b then (false, s') else (false, s)
  | [] => (false, [])
  end.
Definition scan_int (s : bytes) : option (Z * bytes) :=
  let (neg, s1) := scan_sign (drop_while is_ws s) in
  match take_while is_digit s1 with
  | [] => None
  | ds => let v := Z.of_N (digits_val ds) in
          Some (if neg then (- v)%Z else v, drop_while is_digit s1)
  end.
(** [std::stoi] inside a [try] that turns [std::invalid_argument] into [ParserError];
    [std::out_of_range] is not caught. *)
Definition stoi (s : bytes) : outcome Z :=
  match scan_int s with
  | None => Throw ParserError
  | Some (z, _) => if ((- 2 ^ 31 <=? z) && (z <? 2 ^ 31))%Z then Ret z else Throw OutOfRange
  end.
(** [std::stoul], likewise: a minus sign negates modulo 2^64. *)
Definition stoul (s : bytes) : outcome N :=
  match scan_int s with
  | None => Throw ParserError
  | Some (z, _) => if (Z.abs z <? 2 ^ 64)%Z then Ret (uint 64 z) else Throw OutOfRange
  end.
(** [atoi]: no digits give 0; a value outside [int] is undefined behaviour. *)
Definition atoi (s : bytes) : outcome Z :=
  match scan_int s with
  | None => Ret 0%Z
  | Some (z, _) => if ((- 2 ^ 31 <=? z) && (z <? 2 ^ 31))%Z then Ret z else Undef
  end.

(** ** Hexadecimal bytes *)
Definition hex_chr (d : N) : byte := if d <? 10 then n2b (48 + d) else n2b (87 + d).
Definition hex_val (c : byte) : option N :=
  let n := b2n c in
  if (48 <=? n) && (n <=? 57) then Some (n - 48)
  else if (97 <=? n) && (n <=? 102) then Some (n - 87)
  else if (65 <=? n) && (n <=? 70) then Some (n - 55)
  else None.
(** [std::from_chars(p, p + 2, uint8, 16)]: the longest prefix of hexadecimal digits; [None]:
    the target is left unchanged. *)
Definition hex_byte (a b : byte) : option N :=
  match hex_val a with
  | None => None
  | Some x => match hex_val b with None => Some x | Some y => Some (16 * x + y) end
  end.

(** ** Floats, as IEEE-754 single precision bit patterns *)
(** Division rounded to the nearest integer, ties to even. *)
Definition div_rne (p q : N) : N :=
  let d := p / q in
  let r := p mod q in
  if (2 * r <? q) then d
  else if (q <? 2 * r) then d + 1
  else if N.even d then d else d + 1.
Definition pad_left (k : nat) (s : bytes) : bytes := repeat x30 (k - length s) ++ s.
Definition f_sign (x : N) : bool := 2 ^ 31 <=? x.
Definition f_exp (x : N) : N := (x / 2 ^ 23) mod 256.
Definition f_man (x : N) : N := x mod 2 ^ 23.
(** The magnitude of a finite float is [fst * 2 ^ snd]. *)
Definition f_mag (x : N) : N * Z :=
  if f_exp x =? 0 then (f_man x, (-149)%Z)
  else (f_man x + 2 ^ 23, (Z.of_N (f_exp x) - 150)%Z).
(** "%f": the exact value, rounded to six decimals ([std::to_string(float)]). *)
Definition show_f (x : N) : bytes :=
  let sgn := if f_sign x then [x2d] else [] in
  if f_exp x =? 255 then sgn ++ (if f_man x =? 0 then lit "inf" else lit "nan")
  else
    let (m, e) := f_mag x in
    let n := if (0 <=? e)%Z then m * 2 ^ Z.to_N e * 1000000
             else div_rne (m * 1000000) (2 ^ Z.to_N (- e)) in
    sgn ++ dec (n / 1000000) ++ [x2e] ++ pad_left 6 (dec (n mod 1000000)).

(** Round [p / q] to the nearest float magnitude (ties to even).  The result is a bit
    pattern without sign; [2^23 * 255] or more means overflow.  Also tells whether the
    result is subnormal and inexact. *)
Definition round_q (p q : N) : N * bool :=
  if p =? 0 then (0, false)
  else
    let l0 := (Z.of_N (N.log2 p) - Z.of_N (N.log2 q))%Z in
    let ge := fun e : Z => (* 2^e <= p/q *)
      if (0 <=? e)%Z then q * 2 ^ Z.to_N e <=? p else q <=? p * 2 ^ Z.to_N (- e) in
    let l := if ge l0 then l0 else (l0 - 1)%Z in
    let e := Z.max (l - 23) (-149) in
    let p' := if (0 <=? e)%Z then p else p * 2 ^ Z.to_N (- e) in
    let q' := if (0 <=? e)%Z then q * 2 ^ Z.to_N e else q in
    let m := div_rne p' q' in
    let bits := Z.to_N (e + 149) * 2 ^ 23 + m in
    (bits, (bits <? 2 ^ 23) && negb (m * q' =? p')).
(** Scan a decimal floating-point number: sign, digits, fraction, exponent.  Hexadecimal
    floats and the words "inf" and "nan" are not modelled: they count as no conversion.
    The result is sign, magnitude as a fraction, and the rest of the text. *)
Definition scan_float (s : bytes) : option (bool * N * N * bytes) :=
  let (neg, s1) := scan_sign (drop_while is_ws s) in
  let ip := take_while is_digit s1 in
  let s2 := drop_while is_digit s1 in
  let '(fp, s3) := match s2 with
                   | c :: s2' => if beq c x2e then (take_while is_digit s2', drop_while is_digit s2') else ([], s2)
                   | [] => ([], [])
                   end in
  match ip ++ fp with
  | [] => None
  | ds =>
      let '(ex, s4) := match s3 with
                       | c :: s3' =>
                           if beq c x65 || beq c x45 then
                             let (eneg, s3'') := scan_sign s3' in
                             match take_while is_digit s3'' with
                             | [] => (0%Z, s3)
                             | es => let v := Z.of_N (digits_val es) in
                                     (if eneg then (- v)%Z else v, drop_while is_digit s3'')
                             end
                           else (0%Z, s3)
                       | [] => (0%Z, [])
                       end in
      let n := digits_val ds in
      let e10 := (ex - Z.of_N (len fp))%Z in
      Some (neg, (if (0 <=? e10)%Z then n * 10 ^ Z.to_N e10 else n),
                 (if (0 <=? e10)%Z then 1 else 10 ^ Z.to_N (- e10)), s4)
  end.
Definition with_sign (neg : bool) (bits : N) : N := if neg then bits + 2 ^ 31 else bits.
Definition f_huge : N := 255 * 2 ^ 23.
(** [std::stof] inside a [try] for [std::invalid_argument]: overflow, and an inexact
    subnormal result, are [std::out_of_range]. *)
Definition stof (s : bytes) : outcome N :=
  match scan_float s with
  | None => Throw ParserError
  | Some (neg, p, q, _) =>
      let (bits, tiny) := round_q p q in
      if (f_huge <=? bits) || tiny then Throw OutOfRange else Ret (with_sign neg bits)
  end.
(** [stream >> float]: the value and the rest, and whether the extraction succeeded; a
    failed one stores zero, or the largest float on overflow. *)
Definition stream_float (s : bytes) : N * option bytes :=
  match scan_float s with
  | None => (0, None)
  | Some (neg, p, q, rest) =>
      let (bits, _) := round_q p q in
      if f_huge <=? bits then (with_sign neg (f_huge - 1), None)
      else (with_sign neg bits, Some rest)
  end.
(** [stream >> a >> b >> ...] into zero-initialised floats: after a failure the rest stay. *)
Fixpoint stream_floats (k : nat) (s : bytes) : list N :=
  match k with
  | O => []
  | S k' =>
      let (v, r) := stream_float s in
      match r with
      | Some rest => v :: stream_floats k' rest
      | None => v :: repeat 0 k'
      end
  end.

(** [stream >> uint16_t]; a failed extraction is reported as [None]. *)
Definition stream_u16 (s : bytes) : option (N * bytes) :=
  match scan_int s with
  | None => None
  | Some (z, rest) => if (Z.abs z <? 2 ^ 16)%Z then Some (uint 16 z, rest) else None
  end.

(** ** Words *)
(** [strtok(s, " ]")], called repeatedly: the maximal runs of other characters, up to the
    first NUL. *)
Fixpoint tokens (delim : byte -> bool) (s : bytes) (cur : bytes) : list bytes :=
  match s with
  | [] => match cur with [] => [] | _ => [rev cur] end
  | c :: s' =>
      if beq c x00 then match cur with [] => [] | _ => [rev cur] end
      else if delim c then match cur with [] => tokens delim s' [] | _ => rev cur :: tokens delim s' [] end
      else tokens delim s' (c :: cur)
  end.
(** "%127s": white space is skipped, then at most 127 other characters are taken. *)
Definition scan_word (s : bytes) : option (bytes * bytes) :=
  let s1 := drop_while is_ws s in
  let w := take 127 (take_while (fun c => negb (is_ws c)) s1) in
  match w with [] => None | _ => Some (w, drop (len w) s1) end.
(** [std::string::find(sub) == 0] *)
Fixpoint starts_with (p s : bytes) : bool :=
  match p, s with
  | [], _ => true
  | x :: p', y :: s' => beq x y && starts_with p' s'
  | _, [] => false
  end.
(** [s.substr(s.find(c) + 1)]: when [c] does not occur, [find] gives [npos] and [npos + 1] is 0. *)
Fixpoint after_opt (c : byte) (s : bytes) : option bytes :=
  match s with
  | [] => None
  | x :: s' => if beq x c then Some s' else after_opt c s'
  end.
Definition after (c : byte) (s : bytes) : bytes :=
  match after_opt c s with Some r => r | None => s end.
(** [s.substr(0, s.find(c))] *)
Definition before (c : byte) (s : bytes) : bytes := take_while (fun x => negb (beq x c)) s.
