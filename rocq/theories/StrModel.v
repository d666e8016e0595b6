(** Model of src/string_utils.cxx (NuTyX/cards). *)
From Verif Require Import Base.

(** isspace() as used in string_utils.cxx:259,264. ASCII white space: 9..13 and 32.
    Simplification: bytes >= 128 are passed to isspace as negative ints, which ISO C leaves undefined; glibc's table
    is defined there and answers "no" in the C and UTF-8 locales, which is what is modelled. *)
Definition is_space (c : ascii) : bool :=
  let n := N_of_ascii c in ((9 <=? n)%N && (n <=? 13)%N) || (n =? 32)%N.

(** string_utils.cxx:259-260: skip leading white space *)
Fixpoint drop_space (s : str) : str :=
  match s with
  | [] => []
  | c :: t => if is_space c then drop_space t else s
  end.

(** string_utils.cxx:263-268: cut trailing white space: the loop walks pos down from the end, then erases behind it *)
Fixpoint chop_space (s : str) : str :=
  match s with
  | [] => []
  | c :: t => match chop_space t with
              | [] => if is_space c then [] else [c]
              | t' => c :: t'
              end
  end.

(** string_utils.cxx:251-271 stripWhiteSpace *)
Definition strip (s : str) : str := chop_space (drop_space s).

(** string_utils.cxx:7-27 splitKeyValue: parameter and value *)
Definition split_key_value (s : str) (d : ascii) : str * str :=
  match cfind d s with
  | Some n => (strip (firstn n s), strip (skipn (S n) s))
  | None => (s, [])
  end.

(** string_utils.cxx:83-90 getValue (same body as 168-174 getFirstValueOfKeyAfterDelim) *)
Definition get_value (s : str) (d : ascii) : str :=
  match cfind d s with
  | Some n => if S n <? length s then skipn (S n) s else []
  | None => []
  end.

(** string_utils.cxx:91-98 getValueBefore *)
Definition get_value_before (s : str) (d : ascii) : str :=
  match cfind d s with Some n => firstn n s | None => s end.

(** string_utils.cxx:99-105 getValueBeforeLast *)
Definition get_value_before_last (s : str) (d : ascii) : str :=
  match crfind d s with Some n => firstn n s | None => s end.

(** getline(in,line) in a while(!in.eof()) loop (string_utils.cxx:54-55, 73-74; conf.cxx; pkgdbh.cxx readRulesFile):
    the pieces between newlines, the last piece (possibly empty) included *)
Fixpoint getlines (s : str) : list str :=
  match s with
  | [] => [[]]
  | c :: t => if ceqb c nl then [] :: getlines t
              else match getlines t with
                   | l :: ls => (c :: l) :: ls
                   | [] => [[c]]
                   end
  end.

(** string_utils.cxx:75 (and 56): line[0] != '#' && line.find(delimiter) > 0 && line.size() > 0.
    find returning npos satisfies "> 0". *)
Definition key_line (line : str) (d : ascii) : bool :=
  match line with
  | [] => false
  | c :: _ => negb (ceqb c "#"%char) && match cfind d line with Some 0 => false | _ => true end
  end.

(** string_utils.cxx:66-82 getValueOfKey: a std::map filled line by line, then looked up *)
Definition get_value_of_key (content : str) (d : ascii) (param : str) : str :=
  let m := fold_left (fun m line =>
             if key_line line d then
               let '(k, v) := split_key_value (strip line) d in mset k v m
             else m) (getlines content) [] in
  strip (match mget param m with Some v => v | None => [] end).

(** string_utils.cxx:213-231 parseDelimitedVectorList(s, char): loop with accumulator b *)
Fixpoint split_loop (c : ascii) (s : str) (b : str) : list str :=
  match s with
  | [] => match b with [] => [] | _ => [b] end
  | n :: t => if ceqb n c then match b with [] => split_loop c t [] | _ => b :: split_loop c t [] end
              else split_loop c t (b ++ [n])
  end.
Definition split_char (s : str) (c : ascii) : list str := split_loop c s [].

(** string_utils.cxx:232-250 parseDelimitedListList: same loop on a std::list *)
Definition split_char_list (s : str) (c : ascii) : list str := split_loop c s [].

(** strtok(cstr, delims): C library tokenizer; a token is a maximal run of characters outside delims *)
Fixpoint span_out (delims : str) (s : str) : str * str :=
  match s with
  | [] => ([], [])
  | x :: t => if cmem x delims then ([], s) else let '(a, b) := span_out delims t in (x :: a, b)
  end.
Fixpoint skip_in (delims : str) (s : str) : str :=
  match s with
  | [] => []
  | x :: t => if cmem x delims then skip_in delims t else s
  end.
(** one fuel unit per token; S (length s) units always suffice (proved) *)
Fixpoint strtok_loop (fuel : nat) (delims s : str) : option (list str) :=
  match fuel with
  | 0 => None
  | S f =>
      match skip_in delims s with
      | [] => Some []
      | s' => let '(tok, rest) := span_out delims s' in
              option_map (cons tok) (strtok_loop f delims rest)
      end
  end.

(** string_utils.cxx:175-193 parseDelimitedVectorList(s, const char* ): works on strcpy of s, i.e. up to the first NUL *)
Definition split_strtok (s delims : str) : option (list str) :=
  strtok_loop (S (length s)) delims (cstr s).

(** string_utils.cxx:194-212 parseDelimitedSetList *)
Definition split_strtok_set (s delims : str) : option (list str) :=
  option_map set_of (split_strtok s delims).

(** string_utils.cxx:272-288 startsWithNoCase *)
Definition to_upper (c : ascii) : ascii :=
  let n := N_of_ascii c in if ((97 <=? n)%N && (n <=? 122)%N) then ascii_of_N (n - 32) else c.
Definition to_lower (c : ascii) : ascii :=
  let n := N_of_ascii c in if ((65 <=? n)%N && (n <=? 90)%N) then ascii_of_N (n + 32) else c.
Fixpoint starts_with_nocase (s1 s2 : str) : bool :=
  match s1, s2 with
  | x :: t1, y :: t2 => if ceqb (to_upper x) (to_upper y) then starts_with_nocase t1 t2 else false
  | [], _ :: _ => false
  | _, [] => true
  end.

(** string_utils.cxx:289-296 / 297-304. tolower/toupper: ASCII letters only (glibc, C locale) *)
Definition lower_case (s : str) : str := map to_lower s.
Definition upper_case (s : str) : str := map to_upper s.

(** string_utils.cxx:305-312 replaceAll: search from the START after each replacement; loop until not found.
    One fuel unit per iteration; None = not finished within the fuel. *)
Fixpoint replace_all (fuel : nat) (old new s : str) : option str :=
  match fuel with
  | 0 => None
  | S f => match sfind old s with
           | None => Some s
           | Some n => replace_all f old new (firstn n s ++ new ++ skipn (n + length old) s)
           end
  end.

(** decimal digits of a natural number, as printed by "%u"/"%lu" *)
Definition digit (n : N) : ascii := ascii_of_N (48 + n).
Fixpoint dec_loop (fuel : nat) (n : N) (acc : str) : str :=
  match fuel with
  | 0 => acc
  | S f => if (n <? 10)%N then digit n :: acc
           else dec_loop f (n / 10) (digit (n mod 10) :: acc)
  end.
(** 64 rounds: enough for every value below 2^64 (proved: [dec_value]) *)
Definition dec (n : N) : str := dec_loop 64 n [].

(** outcome of sprintf into a fixed buffer: the text, or undefined behaviour *)
Inductive buf_out := Buf (s : str) | BufOverflow.
Definition sprintf_buf (size : nat) (s : str) : buf_out :=
  if S (length s) <=? size then Buf s else BufOverflow.

(** string_utils.cxx:107-112 itos: char buf[20], "%u"; the argument is converted to unsigned int (32 bits) *)
Definition itos (v : N) : buf_out := sprintf_buf 20 (dec (v mod 2 ^ 32)).
(** string_utils.cxx:114-119 ultos: char buf[20], "%lu"; unsigned long (64 bits) *)
Definition ultos (v : N) : buf_out := sprintf_buf 20 (dec (v mod 2 ^ 64)).

(** string_utils.cxx:120-167 mtos. Octal constants of <sys/stat.h> (Linux) *)
Definition S_IFMT : N := 61440. (* 0170000 *)
Definition mtos_type (mode : N) : ascii :=
  let t := N.land mode S_IFMT in
  if (t =? 32768)%N then "-"%char        (* S_IFREG 0100000 *)
  else if (t =? 16384)%N then "d"%char   (* S_IFDIR 0040000 *)
  else if (t =? 40960)%N then "l"%char   (* S_IFLNK 0120000 *)
  else if (t =? 8192)%N then "c"%char    (* S_IFCHR 0020000 *)
  else if (t =? 24576)%N then "b"%char   (* S_IFBLK 0060000 *)
  else if (t =? 49152)%N then "s"%char   (* S_IFSOCK 0140000 *)
  else if (t =? 4096)%N then "p"%char    (* S_IFIFO 0010000 *)
  else "?"%char.
Definition mtos_bit (mode mask : N) (c : ascii) : ascii :=
  if (N.land mode mask =? 0)%N then "-"%char else c.
Definition mtos_x (mode x s : N) (cS cs : ascii) : ascii :=
  let v := N.land mode (N.lor x s) in
  if (v =? x)%N then "x"%char else if (v =? s)%N then cS
  else if (v =? N.lor x s)%N then cs else "-"%char.
Definition mtos (mode : N) : str :=
  [ mtos_type mode;
    mtos_bit mode 256 "r"%char; mtos_bit mode 128 "w"%char; mtos_x mode 64 2048 "S"%char "s"%char;
    mtos_bit mode 32 "r"%char; mtos_bit mode 16 "w"%char; mtos_x mode 8 1024 "S"%char "s"%char;
    mtos_bit mode 4 "r"%char; mtos_bit mode 2 "w"%char; mtos_x mode 1 512 "T"%char "t"%char ].
