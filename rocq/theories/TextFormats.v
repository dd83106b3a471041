(* TextFormats.v -- model of hrdc/stream/formatter/{hex,code}.py,
   hrdc/stream/parser/{hex,code}.py and hrdc/stream/comparer.py.
   Simplification: texts are sequences of ASCII characters (the package only
   writes ASCII unless a user-defined usage has a non-ASCII name, and the
   parsers only give a meaning to ASCII). *)
From Verif Require Import Py Usage Item Parser.

Definition text := list ascii.

Definition str (s : string) : text := list_ascii_of_string s.

Definition code (c : ascii) : Z := Z.of_nat (nat_of_ascii c).

Definition between (lo hi : Z) (c : ascii) : bool :=
  (lo <=? code c) && (code c <=? hi).

(* [0-9A-Fa-f] *)
Definition is_hex (c : ascii) : bool :=
  between 48 57 c || between 65 70 c || between 97 102 c.

Definition hex_val (c : ascii) : Z :=
  if between 48 57 c then code c - 48
  else if between 65 70 c then code c - 55
  else code c - 87.

(* \w *)
Definition is_word (c : ascii) : bool :=
  between 48 57 c || between 65 90 c || between 97 122 c || (code c =? 95).

(* \s for str patterns, ASCII part *)
Definition is_space (c : ascii) : bool :=
  between 9 13 c || between 28 32 c.

Fixpoint join_text (sep : text) (l : list text) : text :=
  match l with
  | [] => []
  | [x] => x
  | x :: r => x ++ sep ++ join_text sep r
  end.

(* --- formatter/hex.py:7-9 -------------------------------------------- *)
Definition hex_line (b : list Z) : text :=
  join_text (str " ") (map (fun x => str (hex2 x)) b) ++ [nl].

Fixpoint format_hex (l : list item) : result text :=
  match l with
  | [] => Ok []
  | i :: r =>
      let* b := bytes i in
      let* t := format_hex r in
      Ok (hex_line b ++ t)
  end.

(* --- parser/hex.py:5-8 ------------------------------------------------ *)

Definition word_head (l : text) : bool :=
  match l with [] => false | c :: _ => is_word c end.

(* re.findall(r"\b(?:0x)?[0-9A-Fa-f]{2}\b", contents), each match through
   int(x, 16).  [prev] tells whether the character before the current
   position is a word character.  A match starts with a hexadecimal digit,
   so the first \b holds iff [prev] is false, and it ends with one, so the
   second holds iff the next character is not a word character.  findall
   tries the 0x alternative first and resumes after the match. *)
Fixpoint hex_scan (prev : bool) (l : text) {struct l} : list Z :=
  match l with
  | [] => []
  | c :: r =>
      if prev then hex_scan (is_word c) r
      else
        match r with
        | [] => []
        | d :: r2 =>
            let short :=
              if is_hex c && is_hex d && negb (word_head r2)
              then 16 * hex_val c + hex_val d :: hex_scan true r2
              else hex_scan (is_word c) r in
            if (code c =? 48) && (code d =? 120) then
              match r2 with
              | a :: b :: r4 =>
                  if is_hex a && is_hex b && negb (word_head r4)
                  then 16 * hex_val a + hex_val b :: hex_scan true r4
                  else short
              | _ => short
              end
            else short
        end
  end.

Definition hex_blob (t : text) : list Z := hex_scan false t.

(* Hex.read *)
Definition parse_hex (db : udb) (t : text) : run := blob_parse db (hex_blob t).

(* --- formatter/code.py ------------------------------------------------ *)

(* s.ljust(n) *)
Definition ljust (n : nat) (t : text) : text :=
  t ++ repeat " "%char (n - length t).

(* the text between "     " and " // " -- code.py:11, 14 *)
Definition code_blob (b : list Z) : text :=
  join_text (str ", ") (map (fun x => str ("0x" ++ hex2 x)) b) ++ str ",".

(* one line, given the current indentation -- code.py:14 *)
Definition code_line (b : list Z) (indent : Z) (i : item) : text :=
  str "     " ++ ljust 30 (code_blob b) ++ str " // "
  ++ repeat " "%char (Z.to_nat (indent * 4)) ++ str (item_str i) ++ [nl].

(* Code.append -- code.py:8-16: the line written and the new indentation *)
Definition code_append (indent : Z) (i : item) : result (Z * text) :=
  let* b := bytes i in
  let indent1 := match ic i with EndCollection => indent - 1 | _ => indent end in
  let line := code_line b indent1 i in
  Ok (match ic i with Collection => indent1 + 1 | _ => indent1 end, line).

(* the lines written for a whole stream, and the final indentation *)
Fixpoint code_run (indent : Z) (l : list item) : result (Z * list text) :=
  match l with
  | [] => Ok (indent, [])
  | i :: r =>
      let* (indent1, line) := code_append indent i in
      let* (indent2, lines) := code_run indent1 r in
      Ok (indent2, line :: lines)
  end.

Definition format_code (l : list item) : result text :=
  let* (_, lines) := code_run 0 l in Ok (concat lines).

(* close warns -- code.py:18-21 *)
Definition code_warns (l : list item) : result bool :=
  let* (n, _) := code_run 0 l in Ok (negb (n =? 0)).

(* --- parser/code.py:5-12 ---------------------------------------------- *)

(* s.split("\n") *)
Fixpoint split_on (sep : ascii -> bool) (l : text) : list text :=
  match l with
  | [] => [[]]
  | c :: r =>
      if sep c then [] :: split_on sep r
      else match split_on sep r with
           | x :: y => (c :: x) :: y
           | [] => [[c]]
           end
  end.

Definition is_nl (c : ascii) : bool := code c =? 10.
Definition is_slash (c : ascii) : bool := code c =? 47.
Definition is_star (c : ascii) : bool := code c =? 42.
Definition is_comma (c : ascii) : bool := code c =? 44.

(* line.split("//", 1)[0] *)
Fixpoint before_slashes (l : text) : text :=
  match l with
  | [] => []
  | c :: r =>
      if is_slash c && match r with d :: _ => is_slash d | [] => false end
      then [] else c :: before_slashes r
  end.

(* the text after the first "*/", if any *)
Fixpoint after_star (l : text) : option text :=
  match l with
  | [] => None
  | c :: r =>
      match r with
      | d :: r2 => if is_star c && is_slash d then Some r2 else after_star r
      | [] => None
      end
  end.

(* re.sub(r"/\*.*?\*/", "", contents): contents has no newline at this
   point.  Recursion on fuel (the length is enough). *)
Fixpoint drop_comments (fuel : nat) (l : text) : text :=
  match fuel with
  | O => l
  | S f =>
      match l with
      | c :: (d :: r2) as r =>
          if is_slash c && is_star d then
            match after_star r2 with
            | Some rest => drop_comments f rest
            | None => c :: drop_comments f (d :: r2)
            end
          else c :: drop_comments f (d :: r2)
      | _ => l
      end
  end.

(* the digits accepted by int(x, 16) after the sign and prefix: single
   underscores between digits *)
Fixpoint int16_digits (acc : Z) (l : text) : option Z :=
  match l with
  | [] => Some acc
  | c :: r =>
      if is_hex c then int16_digits (16 * acc + hex_val c) r
      else if code c =? 95 then
        match r with
        | d :: _ => if is_hex d then int16_digits acc r else None
        | [] => None
        end
      else None
  end.

Definition int16_body (l : text) : option Z :=
  match l with
  | c :: _ => if is_hex c then int16_digits 0 l else None
  | [] => None
  end.

Definition int16_nosign (l : text) : option Z :=
  match l with
  | c :: d :: r =>
      if (code c =? 48) && ((code d =? 120) || (code d =? 88)) then
        match r with
        | e :: r' => if code e =? 95 then int16_body r' else int16_body r
        | [] => None
        end
      else int16_body l
  | _ => int16_body l
  end.

(* int(x, 16) for a string without white space *)
Definition int16 (l : text) : option Z :=
  match l with
  | c :: r =>
      if code c =? 45 then
        match int16_nosign r with Some z => Some (- z) | None => None end
      else if code c =? 43 then int16_nosign r
      else int16_nosign l
  | [] => None
  end.

(* bytes(int(x, 16) for x in ... if x): ValueError when not a number or not
   in 0..255 *)
Fixpoint code_bytes (l : list text) : result (list Z) :=
  match l with
  | [] => Ok []
  | [] :: r => code_bytes r
  | x :: r =>
      match int16 x with
      | None => Err ValueError
      | Some z =>
          if (0 <=? z) && (z <? 256) then
            let* t := code_bytes r in Ok (z :: t)
          else Err ValueError
      end
  end.

(* contents, then the blob -- parser/code.py:6-11, comparer.py:10-15 *)
Definition code_blob_of (t : text) : result (list Z) :=
  let contents := concat (map (fun l => before_slashes l ++ str " ")
                              (split_on is_nl t)) in
  let c1 := drop_comments (length contents) contents in
  let c2 := filter (fun c => negb (is_space c)) c1 in
  code_bytes (split_on is_comma c2).

(* Code.read *)
Definition parse_code (db : udb) (t : text) : run :=
  match code_blob_of t with
  | Ok b => blob_parse db b
  | Err e => Run [] (Err e)
  end.

(* --- comparer.py:6-25 ------------------------------------------------- *)

Fixpoint bytes_eqb (a b : list Z) : bool :=
  match a, b with
  | [], [] => true
  | x :: a', y :: b' => (x =? y) && bytes_eqb a' b'
  | _, _ => false
  end.

(* ExpectedStream.append; a failing assertEqual raises AssertionError.
   State: self.point. *)
Definition exp_append (expected : list Z) (point : nat) (i : item)
  : result nat :=
  let* part := bytes i in
  let slice := firstn (length part) (skipn point expected) in
  if bytes_eqb slice part then Ok (point + length part)%nat
  else Err AssertionError.

Fixpoint exp_run (expected : list Z) (point : nat) (l : list item)
  : result nat :=
  match l with
  | [] => Ok point
  | i :: r =>
      let* p := exp_append expected point i in exp_run expected p r
  end.

(* the whole test: construction, appends, close *)
Definition expect (t : text) (l : list item) : result unit :=
  let* expected := code_blob_of t in
  let* p := exp_run expected 0 l in
  if Nat.eqb p (length expected) then Ok tt else Err AssertionError.
