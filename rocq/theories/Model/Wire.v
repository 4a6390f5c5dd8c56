(** Model of class Serializer (src/ssh/Serializer.hxx) and class
    Deserializer (src/ssh/Deserializer.hxx). *)

From Coq Require Import NArith List Bool.
From Verif.Base Require Import Bytes.
Import ListNotations.
Open Scope N_scope.

(** C++ exceptions of one kind are modelled by [None]; this is the bind. *)
Definition obind {A B} (x : option A) (f : A -> option B) : option B :=
  match x with Some a => f a | None => None end.

Notation "'let*' p := e1 'in' e2" :=
  (obind e1 (fun p => e2)) (at level 61, p as pattern, e1 at next level, right associativity).

(** ** Serializer *)

(** src/ssh/Sizes.hxx: BUFFER_SIZE = 65536 *)
Definition BUFFER_SIZE : N := 65536.

(** src/ssh/Serializer.hxx:21-31 class Serializer.  The model state is the
    contents of [buffer.first(position)]; bytes behind [position] are never
    observable.  The slice allocator ([area]) is not modelled. *)
Definition serializer := bytes.

(** src/ssh/Serializer.cxx:13-19 Serializer::Serializer() *)
Definition new_serializer : serializer := [].

(** src/ssh/Serializer.hxx:44-65,84-87 BeginWriteN(), CommitWriteN(),
    WriteN(size), WriteN(span).  [None] is [throw PacketTooLarge]. *)
Definition WriteN (s : serializer) (src : bytes) : option serializer :=
  if BUFFER_SIZE - len s <? len src then None else Some (s ++ src).

(** src/ssh/Serializer.hxx:77-80 WriteZero() *)
Definition WriteZero (s : serializer) (size : N) : option serializer :=
  WriteN s (repeat 0 (N.to_nat size)).

(** src/ssh/Serializer.hxx:99-101 WriteU8() *)
Definition WriteU8 (s : serializer) (v : N) : option serializer :=
  WriteN s [v mod 256].

(** src/ssh/Serializer.hxx:103-107 WriteU16() *)
Definition WriteU16 (s : serializer) (v : N) : option serializer :=
  WriteN s [(v / 256) mod 256; v mod 256].

(** the four assignments in src/ssh/Serializer.hxx:111-114 (and 186-189);
    each one truncates to uint8_t *)
Definition put_u32 (v : N) : bytes :=
  [ N.shiftr v 24 mod 256; N.shiftr v 16 mod 256; N.shiftr v 8 mod 256; v mod 256 ].

(** src/ssh/Serializer.hxx:109-115 WriteU32() *)
Definition WriteU32 (s : serializer) (v : N) : option serializer :=
  WriteN s (put_u32 v).

(** src/ssh/Serializer.hxx:117-119 WriteBool() *)
Definition WriteBool (s : serializer) (b : bool) : option serializer :=
  WriteU8 s (if b then 1 else 0).

(** src/ssh/Serializer.hxx:126-129 WriteLengthEncoded() *)
Definition WriteLengthEncoded (s : serializer) (src : bytes) : option serializer :=
  let* s := WriteU32 s (len src) in
  WriteN s src.

(** src/ssh/Serializer.hxx:121-124 WriteString() *)
Definition WriteString (s : serializer) (src : bytes) : option serializer :=
  let* s := WriteU32 s (len src) in
  WriteN s src.

(** the loop in lines 138-139 of WriteBignum2() *)
Fixpoint SkipLeadingZeroes (src : bytes) : bytes :=
  match src with
  | b :: rest => if b =? 0 then SkipLeadingZeroes rest else src
  | [] => []
  end.

(** the test [(b & 0x80) != 0] of the first byte (if there is one) *)
Definition LeadingMsb (src : bytes) : bool :=
  match src with
  | b :: _ => negb (N.land b 128 =? 0)
  | [] => false
  end.

(** src/ssh/Serializer.hxx:136-149 WriteBignum2() *)
Definition WriteBignum2 (s : serializer) (src : bytes) : option serializer :=
  let src := SkipLeadingZeroes src in
  let* s := (if LeadingMsb src then WriteU8 s 0 else Some s) in
  WriteN s src.

(** src/ssh/Serializer.hxx:154-156 Mark() *)
Definition Mark (s : serializer) : N := len s.

(** src/ssh/Serializer.hxx:171-175 Since() *)
Definition Since (s : serializer) (old_position : N) : bytes := drop old_position s.

(** src/ssh/Serializer.hxx:162-166 Rewind() *)
Definition Rewind (s : serializer) (old_position : N) : serializer := take old_position s.

(** src/ssh/Serializer.hxx:177-181 PrepareLength() *)
Definition PrepareLength (s : serializer) : option (N * serializer) :=
  let result := len s in
  let* s := WriteU32 s 0 in
  Some (result, s).

(** src/ssh/Serializer.hxx:183-190 CommitLength() *)
Definition CommitLength (s : serializer) (at_ : N) : serializer :=
  let value := len s - at_ - 4 in
  take at_ s ++ put_u32 value ++ drop (at_ + 4) s.

(** src/ssh/Serializer.hxx:237-239 Last() *)
Definition Last (s : serializer) (n : N) : bytes := drop (len s - n) s.

(** src/ssh/Serializer.hxx:196-205 InsertNullByte() *)
Definition InsertNullByte (s : serializer) (backwards_offset : N) : option serializer :=
  if BUFFER_SIZE <=? len s then None
  else Some (take (len s - backwards_offset) s ++ [0] ++ Last s backwards_offset).

(** the number of leading zero bytes, src/ssh/Serializer.hxx:241-247
    StripLeadingNullBytes() (its return value) *)
Fixpoint CountLeadingZeroes (l : bytes) : N :=
  match l with
  | b :: rest => if b =? 0 then 1 + CountLeadingZeroes rest else 0
  | [] => 0
  end.

(** src/ssh/Serializer.hxx:241-247 StripLeadingNullBytes() applied to the
    last [size] bytes followed by [position -= stripped] (line 218): the
    tail is moved down and the end is cut off. *)
Definition StripTail (s : serializer) (size : N) : N * serializer :=
  let stripped := CountLeadingZeroes (Last s size) in
  (stripped, take (len s - size) s ++ drop stripped (Last s size)).

(** src/ssh/Serializer.hxx:214-226 CommitBignum2(); the parameter [s] is
    the state after CommitWriteN(size), i.e. the [size] bytes written by the
    foreign library are already the tail of [s]. *)
Definition CommitBignum2 (s : serializer) (size : N) : option serializer :=
  let '(stripped, s) := StripTail s size in
  let size := size - stripped in
  if (0 <? size) && LeadingMsb (drop (len s - size) s)
  then InsertNullByte s size
  else Some s.

(** src/ssh/Serializer.hxx:228-230 Finish() *)
Definition Finish (s : serializer) : bytes := s.

(** ** Deserializer *)

(** src/ssh/Deserializer.hxx:17-22 class Deserializer: the state is the
    remaining input [src]; [None] is [throw MalformedPacket]. *)
Definition parser (A : Type) := bytes -> option (A * bytes).

(** src/ssh/Deserializer.hxx:24-30 ReadN() *)
Definition ReadN (size : N) : parser bytes := fun src =>
  if len src <? size then None
  else Some (take size src, drop size src).

(** src/ssh/Deserializer.hxx:32-35 ReadBool() *)
Definition ReadBool : parser bool := fun src =>
  match src with
  | b :: rest => Some (negb (b =? 0), rest)
  | [] => None
  end.

(** src/ssh/Deserializer.hxx:37-40 ReadU8() *)
Definition ReadU8 : parser N := fun src =>
  match src with
  | b :: rest => Some (b, rest)
  | [] => None
  end.

(** src/ssh/Deserializer.hxx:42-48 ReadU32().  The C++ code combines the
    bytes with shift and bitwise or, the model with multiplication and
    addition; this is the same for bytes below 256. *)
Definition ReadU32 : parser N := fun src =>
  match src with
  | a :: b :: c :: d :: rest => Some (un_be32 a b c d, rest)
  | _ => None
  end.

(** src/ssh/Deserializer.hxx:50-52 ReadLengthEncoded() *)
Definition ReadLengthEncoded : parser bytes := fun src =>
  let* (n, src) := ReadU32 src in
  ReadN n src.

(** src/ssh/Deserializer.hxx:54-56 ReadString() *)
Definition ReadString : parser bytes := ReadLengthEncoded.

(** src/ssh/Deserializer.hxx:62-65 ExpectEnd() *)
Definition ExpectEnd (src : bytes) : option unit :=
  match src with [] => Some tt | _ => None end.

(** src/ssh/Deserializer.hxx:72-83 Mark()/Since(): the bytes consumed
    between the two positions, given what was left at each of them. *)
Definition DSince (old now : bytes) : bytes := take (len old - len now) old.
