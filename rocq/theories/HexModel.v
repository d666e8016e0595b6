(** Hexadecimal text of hashes and signatures: pkgrepo.cxx. *)
From Verif Require Import Base StrModel FsModel MetaModel.

(** pkgrepo.cxx:829-837, 919-926: std::hex, setw(2), setfill('0') of each byte *)
Definition hex_digit (n : N) : ascii := if (n <? 10)%N then ascii_of_N (48 + n) else ascii_of_N (87 + n).
Definition hex_byte (c : ascii) : str := [hex_digit (N_of_ascii c / 16); hex_digit (N_of_ascii c mod 16)].
Definition hex (b : str) : str := flat_map hex_byte b.

(** std::stoi(s, nullptr, 16): leading white space, a sign and 0x are accepted, reading stops at the first other character *)
Definition prefix16 (s : str) : str :=
  match s with
  | z :: x :: t => if ceqb z "0"%char && (ceqb x "x"%char || ceqb x "X"%char) && has_digit 16 t then t else s
  | _ => s
  end.
Definition stoi16 (s : str) : res Z :=
  let '(neg, s1) := sign (drop_space (cstr s)) in
  let s2 := prefix16 s1 in
  if negb (has_digit 16 s2) then Throw
  else let v := Z.of_N (num 16 0 s2) in
       let w := if neg then (- v)%Z else v in
       if ((w <? - 2 ^ 31) || (2 ^ 31 <=? w))%Z then Throw else Ok w.
(** static_cast<unsigned char> *)
Definition uchar (v : Z) : ascii := ascii_of_N (Z.to_N (v mod 256)).
(** pkgrepo.cxx:869-871, 955-957, 986-988: the buffer has length/2 bytes; the write for an odd last character is at index length/2, outside *)
Fixpoint decode (s : str) : res str :=
  match s with
  | [] => Ok []
  | [c] => rbind (stoi16 [c]) (fun _ => UB)
  | a :: b :: t => rbind (stoi16 [a; b]) (fun v => rbind (decode t) (fun r => Ok (uchar v :: r)))
  end.
