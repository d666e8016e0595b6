(** runtime_dependencies_utils.cxx and file_utils.cxx:9-39: the libraries an ELF file names, on a 64-bit little-endian machine
    (unsigned long has 8 bytes, so the structures for 32-bit files of elf.h have the layout of the 64-bit ones).
    The result is the list of names inserted; UB is a read outside an allocated buffer or from a file that was closed.
    Simplifications: allocation succeeds; a file shorter than a requested part cannot be read in that part whatever the request;
    the file does not change while it is read. *)
From Verif Require Import Base StrModel FsModel MetaModel.
Open Scope N_scope.

Definition nlen (s : str) : N := N.of_nat (length s).
Fixpoint nskip (n : N) (s : str) : str := match s with [] => [] | _ :: t => if n =? 0 then s else nskip (N.pred n) t end.
Fixpoint nfirst (n : N) (s : str) : str := match s with [] => [] | x :: t => if n =? 0 then [] else x :: nfirst (N.pred n) t end.
(** a little-endian number of [k] bytes at the head; None: outside the buffer *)
Fixpoint le_head (k : nat) (s : str) : option N :=
  match k with
  | O => Some 0
  | S k => match s with [] => None | c :: t => option_map (fun v => N_of_ascii c + 256 * v) (le_head k t) end
  end.
Definition le (k : nat) (s : str) (i : N) : option N := le_head k (nskip i s).

(** file_utils.cxx:9-39: [size * nmemb] bytes at [offset] and a NUL; None is the null pointer *)
Definition get_datas (f : str) (offset size nmemb : N) : option str :=
  if (size =? 0) || (nmemb =? 0) then None
  else if nlen f <? offset + size * nmemb then None
  else Some (nfirst (size * nmemb) (nskip offset f) ++ [zero]).

(** runtime_dependencies_utils.cxx:140-163, 262-284: the first string table section: its index and offset *)
Inductive found := Nowhere | Here (i off : N) | Outside.
Fixpoint find_strtab (b : str) (n : nat) (i : N) : found :=
  match n with
  | O => Nowhere
  | S n => match le 4 b (64 * i + 4) with
           | None => Outside
           | Some 3 => match le 8 b (64 * i + 24) with Some off => Here i off | None => Outside end
           | Some _ => find_strtab b n (i + 1)
           end
  end.
(** l.173-188, 304-319: offset and size of the last dynamic segment; None: outside the buffer *)
Fixpoint find_dynamic (b : str) (n : nat) (i : N) (acc : N * N) : option (N * N) :=
  match n with
  | O => Some acc
  | S n => match le 4 b (56 * i) with
           | None => None
           | Some 2 => match le 8 b (56 * i + 8), le 8 b (56 * i + 32) with
                       | Some off, Some size => find_dynamic b n (i + 1) (off, size)
                       | _, _ => None
                       end
           | Some _ => find_dynamic b n (i + 1) acc
           end
  end.
(** l.228-230, 360-362: one name. [strings] ends with the NUL added by getDatas *)
Definition one_name (strings : str) (v : N) : res (list str) :=
  if nlen strings <=? v then UB
  else match cstr (nskip v strings) with
       | [] => match v with 0 => UB | _ => match le 1 strings (v - 1) with Some 46 => Ok [] | _ => Ok [[]] end end
       | name => if ceqb (last name zero) "."%char then Ok [] else Ok [name]
       end.
(** l.217-233, 346-365: the entries; the bound counts entries where the buffer has that many bytes.
    [strings] is None when nothing may be looked up *)
Fixpoint dyn_names (fuel : nat) (strings : option str) (d : str) : res (list str) :=
  match fuel with
  | O => Ok []
  | S k => match le 8 d 0 with
           | None => UB
           | Some 0 => Ok []
           | Some tag =>
             rbind (if (tag =? 1) || (tag =? 14) then
                      match strings with
                      | None => Ok []
                      | Some s => match le 8 d 8 with Some v => one_name s v | None => UB end
                      end
                    else Ok []) (fun l => rbind (dyn_names k strings (nskip 16 d)) (fun t => Ok (l ++ t)))
           end
  end.
(** l.48-379 *)
Definition magic : str := [ascii_of_N 127; "E"; "L"; "F"]%char.
Definition elf_libs (f : str) : res (list str) :=
  if nlen f <? 24 then Ok [] else
  if negb (prefixb magic f) then Ok [] else
  let is32 := match le 1 f 4 with Some 1 => true | _ => false end in
  let hdr := if is32 then 36 else 48 in
  if nlen f <? hdr then UB else (* l.28-47: error() closes the file; its result is not looked at and l.104 reads from a null pointer *)
  if nlen f <? hdr + 16 then Ok [] else
  match (if is32 then le 4 f 28 else le 8 f 32), (if is32 then le 4 f 32 else le 8 f 40),
        le 2 f (hdr + 6), le 2 f (hdr + 8), le 2 f (hdr + 10), le 2 f (hdr + 12) with
  | Some phoff, Some shoff, Some phentsize, Some phnum, Some shentsize, Some shnum =>
    if shnum =? 0 then Ok [] else
    match get_datas f shoff shentsize shnum with
    | None => Ok []
    | Some sh =>
      match find_strtab sh (N.to_nat shnum) 0 with
      | Outside => UB
      | fo =>
        let offset := match fo with Here _ off => off | _ => 0 end in
        (* l.151-160, 272-281, and for 64 bits l.285-294 *)
        if (match fo with Here i _ => i =? shnum - 1 | _ => false end) || (negb is32 && (offset =? shnum - 1)) then Ok [] else
        match get_datas f phoff phentsize phnum with
        | None => Ok []
        | Some ph =>
          match find_dynamic ph (N.to_nat phnum) 0 (0, 0) with
          | None => UB
          | Some (addr, size) =>
            match get_datas f addr 1 size with
            | None => Ok []
            | Some dyn =>
              if 2 ^ 63 <=? offset then dyn_names (N.to_nat size) None dyn (* seek fails: no strings *)
              else if nlen f <=? offset then Ok []
              else dyn_names (N.to_nat size) (if offset <? nlen f - offset then get_datas f offset 1 (nlen f - offset) else None) dyn
            end
          end
        end
      end
    end
  | _, _, _, _, _, _ => Ok [] (* impossible: the header has been read *)
  end.
