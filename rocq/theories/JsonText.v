(** JSON texts as pydantic writes and reads them, for sigstore/dsse/__init__.py:95 [model_validate_json] and
    dsse/__init__.py:99 [model_dump_json].  The code is in pydantic-core and jiter, which are not part of
    the repository; this is a model of their documented behaviour. *)
From Verif Require Import Base Codec Json PyText.
Local Open Scope N_scope.

(** What depends on the library: how deep values may be nested (jiter: 200), how many digits an integer may
    have (4300), and how floats are written and read.  [jl_read_float] gets the longest run of the
    characters of numbers and gives a fraction, or the number of a [JSpecial] (1e999 is infinite); [None]: it
    is not a number. *)
Record JsonLib := mkJL {
  jl_depth : nat;
  jl_digits : nat;
  jl_write_float : Z -> positive -> str;
  jl_read_float : str -> option (Z * positive + nat)
}.

(** ** Writing *)

Definition QUOTE : N := 34.
Definition BACKSLASH : N := 92.
Definition COMMA : N := 44.
Definition COLON : N := 58.

Definition hex_digit (n : N) : N := if n <? 10 then 48 + n else 87 + n.
(** one character of a string: two-character escapes, [\u00..] for the other control characters, else itself *)
Definition write_char (c : N) : str :=
  if c =? QUOTE then [BACKSLASH; QUOTE]
  else if c =? BACKSLASH then [BACKSLASH; BACKSLASH]
  else if c =? 8 then [BACKSLASH; 98]
  else if c =? 9 then [BACKSLASH; 116]
  else if c =? 10 then [BACKSLASH; 110]
  else if c =? 12 then [BACKSLASH; 102]
  else if c =? 13 then [BACKSLASH; 114]
  else if c <? 32 then [BACKSLASH; 117; 48; 48; hex_digit (c / 16); hex_digit (c mod 16)]
  else [c].
Definition write_str (s : str) : str := QUOTE :: flat_map write_char s ++ [QUOTE].

Section Text.
Variable lib : JsonLib.

(** compact, members in the order of the dict; NaN and the infinities become [null] *)
Fixpoint write (j : json) : str :=
  match j with
  | JNull => s2l "null"
  | JBool b => if b then s2l "true" else s2l "false"
  | JInt z => dec_Z z
  | JFloat n d => jl_write_float lib n d
  | JSpecial _ => s2l "null"
  | JStr s => write_str s
  | JList l => s2l "[" ++ join_on COMMA (map write l) ++ s2l "]"
  | JObj o => s2l "{" ++ join_on COMMA (map (fun kv => write_str (fst kv) ++ COLON :: write (snd kv)) o) ++ s2l "}"
  end.

(** ** Reading *)

Definition is_ws (c : N) : bool := (c =? 32) || (c =? 9) || (c =? 10) || (c =? 13).
Fixpoint skip_ws (s : str) : str :=
  match s with
  | c :: r => if is_ws c then skip_ws r else s
  | nil => nil
  end.

(** the two-character escapes *)
Definition simple_escape (e : N) : option N :=
  if e =? 34 then Some 34 else if e =? 92 then Some 92 else if e =? 47 then Some 47
  else if e =? 98 then Some 8 else if e =? 102 then Some 12 else if e =? 110 then Some 10
  else if e =? 114 then Some 13 else if e =? 116 then Some 9 else None.
Definition hex_value (c : N) : option N :=
  if (48 <=? c) && (c <=? 57) then Some (c - 48)
  else if (97 <=? c) && (c <=? 102) then Some (c - 87)
  else if (65 <=? c) && (c <=? 70) then Some (c - 55)
  else None.
Definition hex4 (a b c d : N) : option N :=
  match hex_value a, hex_value b, hex_value c, hex_value d with
  | Some a', Some b', Some c', Some d' => Some (((a' * 16 + b') * 16 + c') * 16 + d')
  | _, _, _, _ => None
  end.
Definition is_high (u : N) : bool := (55296 <=? u) && (u <? 56320).
Definition is_low (u : N) : bool := (56320 <=? u) && (u <? 57344).
Definition from_pair (u v : N) : N := 65536 + (u - 55296) * 1024 + (v - 56320).

Definition cons_to (c : N) (x : option (str * str)) : option (str * str) :=
  match x with Some (s, r) => Some (c :: s, r) | None => None end.
(** a string, after its first quotation mark: the string and what follows it.  Control characters and
    surrogates that are not a pair are refused. *)
Fixpoint chars (s : str) : option (str * str) :=
  match s with
  | nil => None
  | c :: r =>
    if c =? QUOTE then Some (nil, r)
    else if c =? BACKSLASH then
      match r with
      | nil => None
      | e :: r1 =>
        match simple_escape e with
        | Some x => cons_to x (chars r1)
        | None =>
          if e =? 117 then
            match r1 with
            | h1 :: h2 :: h3 :: h4 :: r2 =>
              match hex4 h1 h2 h3 h4 with
              | None => None
              | Some u =>
                if is_high u then
                  match r2 with
                  | b' :: u' :: g1 :: g2 :: g3 :: g4 :: r3 =>
                    if (b' =? BACKSLASH) && (u' =? 117) then
                      match hex4 g1 g2 g3 g4 with
                      | Some v => if is_low v then cons_to (from_pair u v) (chars r3) else None
                      | None => None
                      end
                    else None
                  | _ => None
                  end
                else if is_low u then None
                else cons_to u (chars r2)
              end
            | _ => None
            end
          else None
        end
      end
    else if c <? 32 then None
    else cons_to c (chars r)
  end.

(** ** Numbers *)

Definition num_char (c : N) : bool := is_digit c || (c =? 43) || (c =? 45) || (c =? 46) || (c =? 69) || (c =? 101).
Definition num_start (s : str) : bool :=
  match s with
  | c :: r => is_digit c || ((c =? 45) && match r with d :: _ => is_digit d | nil => false end)
  | nil => false
  end.
Fixpoint span_num (s : str) : str * str :=
  match s with
  | c :: r => if num_char c then let (a, b) := span_num r in (c :: a, b) else (nil, s)
  | nil => (nil, nil)
  end.
(** [0], or digits without a leading zero *)
Definition plain_digits (t : str) : bool :=
  match t with
  | nil => false
  | c :: r => forallb is_digit t && (negb (c =? 48) || match r with nil => true | _ => false end)
  end.
Definition float_json (x : Z * positive + nat) : json := match x with inl (n, d) => JFloat n d | inr k => JSpecial k end.
Definition read_number (t : str) : option json :=
  let '(neg, body) := match t with c :: r => if c =? 45 then (true, r) else (false, t) | nil => (false, t) end in
  if plain_digits body then
    if Nat.leb (length body) (jl_digits lib) then Some (JInt (if neg then - Z.of_N (undec body) else Z.of_N (undec body))%Z) else None
  else if forallb is_digit body then None
  else match jl_read_float lib t with Some x => Some (float_json x) | None => None end.

(** ** Words *)

Definition WORDS : list (str * json) :=
  [(s2l "null", JNull); (s2l "true", JBool true); (s2l "false", JBool false);
   (s2l "NaN", JSpecial 0); (s2l "Infinity", JSpecial 1); (s2l "-Infinity", JSpecial 2)].
Fixpoint strip_prefix (p s : str) : option str :=
  match p, s with
  | nil, _ => Some s
  | a :: p', b :: s' => if a =? b then strip_prefix p' s' else None
  | _ :: _, nil => None
  end.
Fixpoint read_word (ws : list (str * json)) (s : str) : option (json * str) :=
  match ws with
  | nil => None
  | (w, j) :: r => match strip_prefix w s with Some s' => Some (j, s') | None => read_word r s end
  end.

(** the members of an object as a dict: the last one of a name counts *)
Definition to_dict (l : list (str * json)) : list (str * json) :=
  fold_left (fun d kv => dict_set str_eqb (fst kv) (snd kv) d) l nil.

(** ** Values.  [n]: fuel; [d]: how much deeper values may be nested *)
Fixpoint value (n d : nat) (s : str) : option (json * str) :=
  match n with
  | O => None
  | S n' =>
    match s with
    | nil => None
    | c :: r =>
      if c =? QUOTE then match chars r with Some (x, r') => Some (JStr x, r') | None => None end
      else if c =? 91 then
        match d with
        | O => None
        | S d' =>
          match skip_ws r with
          | nil => None
          | c1 :: r1 =>
            if c1 =? 93 then Some (JList nil, r1)
            else match elements n' d' (c1 :: r1) with Some (l, r') => Some (JList l, r') | None => None end
          end
        end
      else if c =? 123 then
        match d with
        | O => None
        | S d' =>
          match skip_ws r with
          | nil => None
          | c1 :: r1 =>
            if c1 =? 125 then Some (JObj nil, r1)
            else match members n' d' (c1 :: r1) with Some (l, r') => Some (JObj (to_dict l), r') | None => None end
          end
        end
      else if num_start s then
        let (t, r') := span_num s in
        match read_number t with Some j => Some (j, r') | None => None end
      else read_word WORDS s
    end
  end
(** the elements of an array and the closing bracket *)
with elements (n d : nat) (s : str) : option (list json * str) :=
  match n with
  | O => None
  | S n' =>
    match value n' d s with
    | None => None
    | Some (j, r) =>
      match skip_ws r with
      | nil => None
      | c :: r1 =>
        if c =? 93 then Some ([j], r1)
        else if c =? COMMA then
          match elements n' d (skip_ws r1) with Some (l, r') => Some (j :: l, r') | None => None end
        else None
      end
    end
  end
(** the members of an object and the closing brace *)
with members (n d : nat) (s : str) : option (list (str * json) * str) :=
  match n with
  | O => None
  | S n' =>
    match s with
    | nil => None
    | q :: r =>
      if q =? QUOTE then
        match chars r with
        | None => None
        | Some (k, r0) =>
          match skip_ws r0 with
          | nil => None
          | c0 :: r1 =>
            if c0 =? COLON then
              match value n' d (skip_ws r1) with
              | None => None
              | Some (j, r2) =>
                match skip_ws r2 with
                | nil => None
                | c :: r3 =>
                  if c =? 125 then Some ([(k, j)], r3)
                  else if c =? COMMA then
                    match members n' d (skip_ws r3) with Some (l, r') => Some ((k, j) :: l, r') | None => None end
                  else None
                end
              end
            else None
          end
        end
      else None
    end
  end.

(** a whole text *)
Definition read (s : str) : option json :=
  match value (S (2 * length s)) (jl_depth lib) (skip_ws s) with
  | Some (j, r) => match skip_ws r with nil => Some j | _ => None end
  | None => None
  end.
(** bytes: must be UTF-8 *)
Definition read_bytes (b : bytes) : option json :=
  match utf8_decode b with Some s => read s | None => None end.
End Text.
