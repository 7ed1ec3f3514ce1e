(** Model of /repo/types/uuid: text forms, random UUIDs, the clock sequence. *)
From Verif Require Import Base FramesModel.

(** ** util.go *)
(** [xvalues], types/uuid/util.go 19-36 *)
Definition xvalues : list N :=
  repeat 255 48 ++
  [0; 1; 2; 3; 4; 5; 6; 7; 8; 9; 255; 255; 255; 255; 255; 255] ++
  [255; 10; 11; 12; 13; 14; 15; 255; 255; 255; 255; 255; 255; 255; 255; 255] ++
  repeat 255 16 ++
  [255; 10; 11; 12; 13; 14; 15; 255; 255; 255; 255; 255; 255; 255; 255; 255] ++
  repeat 255 16 ++
  repeat 255 128.
(** [xtob], types/uuid/util.go 39-43; bytes are below 256, so the table is never left. *)
Definition xtob (x1 x2 : N) : option N :=
  let b1 := nth (N.to_nat x1) xvalues 255 in
  let b2 := nth (N.to_nat x2) xvalues 255 in
  if negb (b1 =? 255) && negb (b2 =? 255) then Some (N.lor (u8 (N.shiftl b1 4)) b2) else None.

(** ** uuid.go: parsing.  A UUID is a list of 16 bytes. *)
(** [s[i]] with its bounds check; types/uuid/uuid.go 85, 105 *)
Definition index (s : bytes) (i : nat) : res N := match nth_error s i with Some x => Ok x | None => Panic end.
(** The loops types/uuid/uuid.go 84-89, 99-110, 128-133, 143-154: the byte at each position. *)
Fixpoint pairs (s : bytes) (pos : list nat) : res bytes :=
  match pos with
  | [] => Ok []
  | x :: pos' =>
      a <- index s x ;;
      b <- index s (S x) ;;
      match xtob a b with
      | None => Err "invalid UUID format"
      | Some v => l <- pairs s pos' ;; Ok (v :: l)
      end
  end.
(** types/uuid/uuid.go 99-104, 143-148 *)
Definition positions : list nat := [0; 2; 4; 6; 9; 11; 14; 16; 19; 21; 24; 26; 28; 30; 32; 34]%nat.
(** types/uuid/uuid.go 96 *)
Definition dash := 45.
(** types/uuid/uuid.go 96-111 *)
Definition parse_dashed (s : bytes) : res bytes :=
  a <- index s 8 ;; b <- index s 13 ;; c <- index s 18 ;; d <- index s 23 ;;
  if negb (a =? dash) || negb (b =? dash) || negb (c =? dash) || negb (d =? dash) then Err "invalid UUID format"
  else pairs s positions.
(** [strings.ToLower] and [bytes.ToLower] of nine bytes compared with
    "urn:uuid:", as ASCII: the only other character that becomes a letter of it
    is U+0130, whose two bytes become one, so nine bytes with it cannot give
    nine; invalid UTF-8 becomes U+FFFD.  types/uuid/uuid.go 72, 120 *)
Definition lower (c : N) : N := if (65 <=? c) && (c <=? 90) then c + 32 else c.
(** types/uuid/uuid.go 72, 195 *)
Definition urn_prefix : bytes := [117; 114; 110; 58; 117; 117; 105; 100; 58].
(** [Parse], types/uuid/uuid.go 64-112.  The partial UUID returned beside an error is left out. *)
Definition parse (s : bytes) : res bytes :=
  let n := List.length s in
  if Nat.eqb n 36 then parse_dashed s
  else if Nat.eqb n 45 then
    if list_eq_dec N.eq_dec (map lower (firstn 9 s)) urn_prefix then parse_dashed (skipn 9 s) else Err "invalid urn prefix"
  else if Nat.eqb n 38 then parse_dashed (skipn 1 s)
  else if Nat.eqb n 32 then pairs s (map (fun i => i * 2)%nat (seq 0 16))
  else Err "invalid UUID length".
(** [ParseBytes], types/uuid/uuid.go 115-156; [UnmarshalText], marshal.go 20-27 *)
Definition parse_bytes (b : bytes) : res bytes :=
  let n := List.length b in
  if Nat.eqb n 36 then parse_dashed b
  else if Nat.eqb n 45 then
    if list_eq_dec N.eq_dec (map lower (firstn 9 b)) urn_prefix then parse_dashed (skipn 9 b) else Err "invalid urn prefix"
  else if Nat.eqb n 38 then parse_dashed (skipn 1 b)
  else if Nat.eqb n 32 then pairs b [0; 2; 4; 6; 8; 10; 12; 14; 16; 18; 20; 22; 24; 26; 28; 30]%nat
  else Err "invalid UUID length".
(** [UnmarshalBinary], marshal.go 35-41; [FromBytes], types/uuid/uuid.go 170-173 *)
Definition unmarshal_binary (data : bytes) : res bytes :=
  if len data =? 16 then Ok data else Err "invalid UUID".

(** ** uuid.go: formatting *)
(** [hex.Encode] of the standard library: two lower-case digits per byte.  types/uuid/uuid.go 200-210 *)
Definition hexdigit (d : N) : N := if d <? 10 then 48 + d else 87 + d.
(** types/uuid/uuid.go 200-210 *)
Definition hex_encode (b : bytes) : bytes := flat_map (fun x => [hexdigit (x / 16); hexdigit (x mod 16)]) b.
(** Writing [src] at offset [n] of a buffer that is long enough.  types/uuid/uuid.go 200-210 *)
Definition write_at (n : nat) (src buf : bytes) : bytes := firstn n buf ++ src ++ skipn (n + List.length src) buf.
(** types/uuid/uuid.go 200-210 *)
Definition slice (a b : nat) (l : bytes) : bytes := firstn (b - a) (skipn a l).
(** [encodeHex], types/uuid/uuid.go 200-210, into the buffer from offset [o] on *)
Definition encode_hex (o : nat) (u buf : bytes) : bytes :=
  let buf := write_at (o + 0) (hex_encode (slice 0 4 u)) buf in
  let buf := write_at (o + 8) [dash] buf in
  let buf := write_at (o + 9) (hex_encode (slice 4 6 u)) buf in
  let buf := write_at (o + 13) [dash] buf in
  let buf := write_at (o + 14) (hex_encode (slice 6 8 u)) buf in
  let buf := write_at (o + 18) [dash] buf in
  let buf := write_at (o + 19) (hex_encode (slice 8 10 u)) buf in
  let buf := write_at (o + 23) [dash] buf in
  write_at (o + 24) (hex_encode (skipn 10 u)) buf.
(** [String], types/uuid/uuid.go 185-189; [MarshalText], marshal.go 13-17 *)
Definition uuid_string (u : bytes) : bytes := encode_hex 0 u (zeros 36).
(** [URN], types/uuid/uuid.go 193-198 *)
Definition uuid_urn (u : bytes) : bytes := encode_hex 9 u (write_at 0 urn_prefix (zeros 45)).
(** [Version], types/uuid/uuid.go 227-229, and [Variant], 213-224: RFC4122, Reserved, Microsoft, Future are 1 to 4. *)
Definition version (u : bytes) : N := N.shiftr (nth 6 u 0) 4.
(** types/uuid/uuid.go 213-224 *)
Definition variant (u : bytes) : N :=
  let b := nth 8 u 0 in
  if N.land b 192 =? 128 then 1 else if N.land b 224 =? 192 then 3 else if N.land b 224 =? 224 then 4 else 2.

(** ** version4.go.  The random source is the list of bytes it will deliver;
    [io.ReadFull] fails at its end, having taken what there was. *)
(** types/uuid/version4.go 53-54, 73-74 *)
Definition stamp (u : bytes) : bytes :=
  let u := write_at 6 [N.lor (N.land (nth 6 u 0) 15) 64] u in
  write_at 8 [N.lor (N.land (nth 8 u 0) 63) 128] u.
(** types/uuid/version4.go 49, 62 *)
Definition read_random (n : nat) (src : bytes) : option bytes * bytes :=
  if (n <=? List.length src)%nat then (Some (firstn n src), skipn n src) else (None, []).
(** [NewRandomFromReader], types/uuid/version4.go 47-56 *)
Definition new_from_reader (src : bytes) : res bytes * bytes :=
  match read_random 16 src with (Some u, rest) => (Ok (stamp u), rest) | (None, rest) => (Err "EOF", rest) end.
(** The pool, types/uuid/uuid.go 37-45; calls are serialised by [poolMu]. *)
Record pool := { p_enabled : bool; p_pos : nat; p_bytes : bytes; p_src : bytes }.
(** types/uuid/uuid.go 37-45 *)
Definition pool_init (src : bytes) : pool := {| p_enabled := false; p_pos := 256; p_bytes := zeros 256; p_src := src |}.
(** [newRandomFromPool], types/uuid/version4.go 58-76.  After a failed read the pool holds part of what
    was read, but counts as used up. *)
Definition new_from_pool (p : pool) : res bytes * pool :=
  let take p := (Ok (stamp (slice (p_pos p) (p_pos p + 16) (p_bytes p))),
                 {| p_enabled := p_enabled p; p_pos := p_pos p + 16; p_bytes := p_bytes p; p_src := p_src p |}) in
  if Nat.eqb (p_pos p) 256 then
    match read_random 256 (p_src p) with
    | (Some b, rest) => take {| p_enabled := p_enabled p; p_pos := 0; p_bytes := b; p_src := rest |}
    | (None, rest) => (Err "EOF", {| p_enabled := p_enabled p; p_pos := p_pos p; p_bytes := p_bytes p; p_src := rest |})
    end
  else take p.
(** [NewRandom], types/uuid/version4.go 39-44; [EnableRandPool] and [DisableRandPool], uuid.go 279-294 *)
Inductive pool_call := PNew | PEnable | PDisable.
(** types/uuid/version4.go 39-44 *)
Definition pool_step (c : pool_call) (p : pool) : list (res bytes) * pool :=
  match c with
  | PNew =>
      if p_enabled p then let '(r, p') := new_from_pool p in ([r], p')
      else let '(r, rest) := new_from_reader (p_src p) in ([r], {| p_enabled := false; p_pos := p_pos p; p_bytes := p_bytes p; p_src := rest |})
  | PEnable => ([], {| p_enabled := true; p_pos := p_pos p; p_bytes := p_bytes p; p_src := p_src p |})
  | PDisable => ([], {| p_enabled := false; p_pos := 256; p_bytes := p_bytes p; p_src := p_src p |})
  end.
(** types/uuid/version4.go 39-44 *)
Fixpoint pool_run (l : list pool_call) (p : pool) : list (res bytes) :=
  match l with [] => [] | c :: l' => let '(r, p') := pool_step c p in r ++ pool_run l' p' end.

(** ** time.go *)
(** types/uuid/time.go 17-23 *)
Definition g1582ns100 : Z := (2440587 - 2299160) * 86400 * 10000000.
(** The package variables, types/uuid/time.go 25-31 *)
Record clock := { c_last : N; c_seq : N }.
(** types/uuid/time.go 25-31 *)
Definition clock_init : clock := {| c_last := 0; c_seq := 0 |}.
(** [setClockSequence], types/uuid/time.go 97-108; [b1], [b2] are the random bytes it takes for -1;
    a negative [int] is masked in two's complement. *)
Definition set_seq (seq : Z) (b1 b2 : N) (c : clock) : clock :=
  let seq := if (seq =? -1)%Z then Z.of_N (N.lor (N.shiftl b1 8) b2) else seq in
  let s := N.lor (Z.to_N (Z.land seq 16383)) 32768 in
  {| c_last := if c_seq c =? s then c_last c else 0; c_seq := s |}.
(** [getTime], types/uuid/time.go 51-67; the clock reads [ns] nanoseconds since 1970; the division
    truncates, conversions wrap. *)
Definition time_of (ns : Z) : N := Z.to_N ((Z.quot ns 100 + g1582ns100) mod 18446744073709551616).
(** types/uuid/time.go 51-67 *)
Definition get_time (ns : Z) (b1 b2 : N) (c : clock) : N * N * clock :=
  let c := if c_seq c =? 0 then set_seq (-1) b1 b2 c else c in
  let now := time_of ns in
  let s := if now <=? c_last c then N.lor (N.land (u16 (c_seq c + 1)) 16383) 32768 else c_seq c in
  (now, s, {| c_last := now; c_seq := s |}).
(** [GetTime], 45-49, [ClockSequence], 76-87, and [SetClockSequence], 91-95, serialised by [timeMu].  types/uuid/time.go 45-95 *)
Inductive clock_call := TGet (ns : Z) (b1 b2 : N) | TSeq (b1 b2 : N) | TSet (seq : Z) (b1 b2 : N).
(** types/uuid/time.go 45-95 *)
Definition clock_step (k : clock_call) (c : clock) : list (N * N) * clock :=
  match k with
  | TGet ns b1 b2 => let '(t, s, c') := get_time ns b1 b2 c in ([(t, s)], c')
  | TSeq b1 b2 => ([], if c_seq c =? 0 then set_seq (-1) b1 b2 c else c)
  | TSet seq b1 b2 => ([], set_seq seq b1 b2 c)
  end.
(** types/uuid/time.go 45-95 *)
Fixpoint clock_run (l : list clock_call) (c : clock) : list (N * N) :=
  match l with [] => [] | k :: l' => let '(o, c') := clock_step k c in o ++ clock_run l' c' end.
(** [UUID.Time], types/uuid/time.go 112-117, [UUID.ClockSequence], 121-123, [Time.UnixTime], 35-40 *)
Definition uuid_time (u : bytes) : N :=
  N.lor (N.lor (unbe (slice 0 4 u)) (N.shiftl (unbe (slice 4 6 u)) 32)) (N.shiftl (N.land (unbe (slice 6 8 u)) 4095) 48).
(** types/uuid/time.go 121-123 *)
Definition uuid_clock_seq (u : bytes) : N := N.land (unbe (slice 8 10 u)) 16383.
(** types/uuid/time.go 35-40 *)
Definition unix_time (t : Z) : Z * Z :=
  let sec := (t - g1582ns100)%Z in (Z.quot sec 10000000, (Z.rem sec 10000000 * 100)%Z).
