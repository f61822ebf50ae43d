(** Specification vocabulary for text: the UTF-8 form of a character (RFC 3629,
    section 3), white space (Unicode property White_Space), and the replacement
    of ill-formed sequences (Unicode 3.9, "U+FFFD Substitution of Maximal
    Subparts").  Nothing here uses the functions of Utf8.v and Text.v. *)
From Verif Require Import Base.
#[local] Unset Implicit Arguments.
Local Open Scope N_scope.

(** [utf8_char c b]: the octets [b] are the UTF-8 form of character [c], which
    is not a surrogate. *)
Inductive utf8_char : N -> bytes -> Prop :=
| one_octet c : c < 0x80 -> utf8_char c [c]
| two_octets c a b : c = a * 2 ^ 6 + b -> 0x80 <= c < 0x800 -> b < 2 ^ 6 -> utf8_char c [0xC0 + a; 0x80 + b]
| three_octets c a b d : c = a * 2 ^ 12 + b * 2 ^ 6 + d -> 0x800 <= c < 0x10000 -> ~ (0xD800 <= c < 0xE000) ->
    b < 2 ^ 6 -> d < 2 ^ 6 -> utf8_char c [0xE0 + a; 0x80 + b; 0x80 + d]
| four_octets c a b d e : c = a * 2 ^ 18 + b * 2 ^ 12 + d * 2 ^ 6 + e -> 0x10000 <= c < 0x110000 ->
    b < 2 ^ 6 -> d < 2 ^ 6 -> e < 2 ^ 6 -> utf8_char c [0xF0 + a; 0x80 + b; 0x80 + d; 0x80 + e].
(** The octets of a text. *)
Inductive utf8_text : list N -> bytes -> Prop :=
| no_text : utf8_text [] []
| more_text c b cs bs : utf8_char c b -> utf8_text cs bs -> utf8_text (c :: cs) (b ++ bs).

(** A maximal subpart [s] of octets that do not start with a character: the
    longest start of some character, or one octet if there is none. *)
Definition starts_char (s : bytes) : Prop := exists c r, utf8_char c (s ++ r).
Definition maximal_subpart (s rest : bytes) : Prop :=
  s <> [] /\
  (forall c b r, s ++ rest = b ++ r -> ~ utf8_char c b) /\
  (starts_char s \/ length s = 1%nat) /\
  (forall s' r, s ++ rest = s' ++ r -> starts_char s' -> (length s' <= length s)%nat).
(** The characters of octets that need not be UTF-8: every maximal subpart that
    is not a character becomes U+FFFD. *)
Inductive read_text : bytes -> list N -> Prop :=
| text_end : read_text [] []
| text_char c b rest cs : utf8_char c b -> read_text rest cs -> read_text (b ++ rest) (c :: cs)
| text_replaced s rest cs : maximal_subpart s rest -> read_text rest cs -> read_text (s ++ rest) (0xFFFD :: cs).

(** The 25 white space characters. *)
Definition white_space : list N :=
  [0x0009; 0x000A; 0x000B; 0x000C; 0x000D; 0x0020; 0x0085; 0x00A0; 0x1680;
   0x2000; 0x2001; 0x2002; 0x2003; 0x2004; 0x2005; 0x2006; 0x2007; 0x2008; 0x2009; 0x200A;
   0x2028; 0x2029; 0x202F; 0x205F; 0x3000].
Definition no_trailing_space (cs : list N) : Prop := forall a c, cs = a ++ [c] -> ~ In c white_space.
(** [s] is the text of [b] without its trailing white space. *)
Definition stripped (b s : bytes) : Prop :=
  exists cs ws, read_text b (cs ++ ws) /\ (forall c, In c ws -> In c white_space) /\ no_trailing_space cs /\ utf8_text cs s.
