(** Reading test vectors: hexadecimal text and ASCII text as bytes.
    Used only by examples. *)
From Verif Require Import Base.
From Coq Require Import Ascii String.

Definition hexval (c : ascii) : option N :=
  let n := N_of_ascii c in
  if ((48 <=? n) && (n <=? 57))%N then Some (n - 48)%N
  else if ((97 <=? n) && (n <=? 102))%N then Some (n - 87)%N
  else if ((65 <=? n) && (n <=? 70))%N then Some (n - 55)%N
  else None.

Fixpoint hex_go (s : string) (acc : option N) : bytes :=
  match s with
  | EmptyString => []
  | String c s' =>
      match hexval c, acc with
      | None, _ => hex_go s' acc
      | Some d, None => hex_go s' (Some d)
      | Some d, Some h => (16 * h + d)%N :: hex_go s' None
      end
  end.
Definition hex (s : string) : bytes := hex_go s None.

Fixpoint str (s : string) : bytes :=
  match s with EmptyString => [] | String c s' => N_of_ascii c :: str s' end.
