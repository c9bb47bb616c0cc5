(** Model of the text handling of the tools: query logs and command lines.

    A text is the list of its bytes.  An uncaught exception ends the program; where one
    can be thrown the result is an option, and [None] is that outcome. *)

From Coq Require Import String Ascii.
From Verif Require Import Base.

(** The bytes of a literal.  No code of its own: e.g. "--out",
    tools/intersection_query_log.cpp:192. *)
Definition txt (s : string) : list N := map N_of_ascii (list_ascii_of_string s).

(** The characters that [>>] skips, in the "C" locale.  tools/intersection_query_log.cpp:98,
    tools/intersection_querylog_fastTrie.cpp:34. *)
Definition is_space (c : N) : bool := (N.eqb c 32 || (N.leb 9 c && N.leb c 13))%bool.

(** No code in /repo: the digits that stoi, stoull and atoi read,
    tools/intersection_query_log.cpp:99, tools/intersection_querylog_fastTrie.cpp:35,
    tools/build_tries.cpp:219, 233. *)
Definition is_digit (c : N) : bool := (N.leb 48 c && N.leb c 57)%bool.

(** The lines that [while (std::getline(in, line))] yields:
    tools/intersection_query_log.cpp:94, tools/intersection_querylog_fastTrie.cpp:31.
    [line] holds what was read of the current line.  An unfinished last line counts
    unless it is empty. *)
Fixpoint get_lines (text line : list N) : list (list N) :=
  match text with
  | [] => match line with [] => [] | _ => [line] end
  | c :: text' => if N.eqb c 10 then line :: get_lines text' [] else get_lines text' (line ++ [c])
  end.

(** The words that [for (std::string s; iss >> s;)] yields:
    tools/intersection_query_log.cpp:97-98,
    tools/intersection_querylog_fastTrie.cpp:33-34. *)
Fixpoint get_words (line word : list N) : list (list N) :=
  match line with
  | [] => match word with [] => [] | _ => [word] end
  | c :: line' =>
    if is_space c then
      match word with [] => get_words line' [] | _ => word :: get_words line' [] end
    else get_words line' (word ++ [c])
  end.

(** The digits at the start of a text, as the number read so far; [None] if there is none.  No
    code in /repo: called through tools/intersection_query_log.cpp:99,
    tools/intersection_querylog_fastTrie.cpp:35, tools/build_tries.cpp:219, 233. *)
Fixpoint read_digits (s : list N) (acc : option N) : option N :=
  match s with
  | c :: s' =>
    if is_digit c then
      read_digits s' (Some ((match acc with Some a => a | None => 0 end) * 10 + (c - 48))%N)
    else acc
  | [] => acc
  end.

(** No code in /repo: the spaces that stoi, stoull and atoi skip,
    tools/intersection_query_log.cpp:99, tools/intersection_querylog_fastTrie.cpp:35,
    tools/build_tries.cpp:219, 233. *)
Fixpoint skip_spaces (s : list N) : list N :=
  match s with
  | c :: s' => if is_space c then skip_spaces s' else s
  | [] => []
  end.

(** strtol and strtoull in base 10: whether there is a minus sign, and the magnitude.  No code
    in /repo: called through tools/intersection_query_log.cpp:99,
    tools/intersection_querylog_fastTrie.cpp:35, tools/build_tries.cpp:219, 233. *)
Definition read_number (s : list N) : bool * option N :=
  match skip_spaces s with
  | c :: s' =>
    if N.eqb c 45 then (true, read_digits s' None)
    else if N.eqb c 43 then (false, read_digits s' None)
    else (false, read_digits (c :: s') None)
  | [] => (false, None)
  end.

(** [(uint32_t)std::stoi(s)]: throws without digits and outside the range of int.
    tools/intersection_query_log.cpp:99. *)
Definition stoi32 (s : list N) : option N :=
  match read_number s with
  | (_, None) => None
  | (false, Some v) => if N.ltb v (2 ^ 31) then Some v else None
  | (true, Some v) => if N.leb v (2 ^ 31) then Some ((2 ^ 32 - v) mod 2 ^ 32)%N else None
  end.

(** [std::stoull(s)]: throws without digits and from 2^64; a minus sign negates modulo 2^64.
    tools/intersection_querylog_fastTrie.cpp:35, tools/build_tries.cpp:219, 223. *)
Definition stoull (s : list N) : option N :=
  match read_number s with
  | (_, None) => None
  | (neg, Some v) =>
    if N.ltb v (2 ^ 64) then Some (if neg then (2 ^ 64 - v) mod 2 ^ 64 else v)%N else None
  end.

(** [std::atoi(s)] stored in an unsigned variable of [bits] bits: 0 without digits, undefined
    outside the range of int.  tools/build_tries.cpp:233, tools/build_fastTries.cpp:182, 208. *)
Definition atoi (bits : N) (s : list N) : result N :=
  match read_number s with
  | (_, None) => Ok 0%N
  | (neg, Some v) =>
    if N.leb v (if neg then 2 ^ 31 else 2 ^ 31 - 1) then
      Ok (if neg then (2 ^ 32 - v) mod 2 ^ bits else v mod 2 ^ bits)%N
    else UB BadCast
  end.

(** No code of its own: a loop that ends at the first exception,
    tools/intersection_query_log.cpp:94-101, tools/intersection_querylog_fastTrie.cpp:31-37. *)
Fixpoint each_some {A B} (f : A -> option B) (l : list A) : option (list B) :=
  match l with
  | [] => Some []
  | a :: l' =>
    match f a with
    | None => None
    | Some b => match each_some f l' with None => None | Some bs => Some (b :: bs) end
    end
  end.

(** loadQueryLog: tools/intersection_query_log.cpp:86-106.  A file that cannot be opened
    ([None]) gives no queries. *)
Definition load_query_log (file : option (list N)) : option (list (list N)) :=
  match file with
  | None => Some []
  | Some text => each_some (fun line => each_some stoi32 (get_words line [])) (get_lines text [])
  end.

(** loadQueryLog: tools/intersection_querylog_fastTrie.cpp:23-42. *)
Definition fast_load_query_log (file : option (list N)) : option (list (list N)) :=
  match file with
  | None => Some []
  | Some text => each_some (fun line => each_some stoull (get_words line [])) (get_lines text [])
  end.
