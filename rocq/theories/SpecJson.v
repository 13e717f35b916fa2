(** JSON texts (RFC 8259) and the values they denote: specification side. *)
From Coq Require Import String ZArith List Bool Lia.
From Verif Require Import Base.
Import ListNotations.
Open Scope Z_scope.

(** Numbers are kept as their text. *)
Inductive json :=
| JNull
| JBool (b : bool)
| JNum (text : str)
| JStr (s : str)
| JArr (l : list json)
| JObj (members : list (str * json)).

Definition jws (c : char) : bool := (c =? 32) || (c =? 9) || (c =? 10) || (c =? 13).
Fixpoint skip_jws (s : str) : str :=
  match s with c :: r => if jws c then skip_jws r else s | [] => [] end.

Definition hexval (c : char) : option Z :=
  if (48 <=? c) && (c <=? 57) then Some (c - 48)
  else if (97 <=? c) && (c <=? 102) then Some (c - 87)
  else if (65 <=? c) && (c <=? 70) then Some (c - 55)
  else None.
Definition hex4 (a b c d : char) : option Z :=
  match hexval a, hexval b, hexval c, hexval d with
  | Some a, Some b, Some c, Some d => Some (((a * 16 + b) * 16 + c) * 16 + d)
  | _, _, _, _ => None
  end.

(** The two-character escapes. *)
Definition simple_escape (e : char) : option char :=
  if e =? 34 then Some 34            (* quotation mark *)
  else if e =? 92 then Some 92       (* reverse solidus *)
  else if e =? 47 then Some 47       (* solidus *)
  else if e =? 98 then Some 8        (* b *)
  else if e =? 102 then Some 12      (* f *)
  else if e =? 110 then Some 10      (* n *)
  else if e =? 114 then Some 13      (* r *)
  else if e =? 116 then Some 9       (* t *)
  else None.

Definition push {A} (c : char) (o : option (str * A)) : option (str * A) :=
  match o with Some (s, r) => Some (c :: s, r) | None => None end.

(** The rest of a string after its opening quotation mark: the characters it
    stands for and the text after the closing mark.  Control characters must be
    escaped; surrogates must come in pairs. *)
Fixpoint jstring (s : str) : option (str * str) :=
  match s with
  | [] => None
  | c :: r =>
      if c =? 34 then Some ([], r)
      else if c =? 92 then
        match r with
        | [] => None
        | e :: r1 =>
            if e =? 117 then
              match r1 with
              | h1 :: h2 :: h3 :: h4 :: r2 =>
                  match hex4 h1 h2 h3 h4 with
                  | None => None
                  | Some u =>
                      if (55296 <=? u) && (u <=? 56319) then
                        match r2 with
                        | x :: y :: l1 :: l2 :: l3 :: l4 :: r3 =>
                            match hex4 l1 l2 l3 l4 with
                            | None => None
                            | Some v =>
                                if (x =? 92) && (y =? 117) && (56320 <=? v) && (v <=? 57343)
                                then push (65536 + (u - 55296) * 1024 + (v - 56320)) (jstring r3)
                                else None
                            end
                        | _ => None
                        end
                      else if (56320 <=? u) && (u <=? 57343) then None
                      else push u (jstring r2)
                  end
              | _ => None
              end
            else match simple_escape e with Some x => push x (jstring r1) | None => None end
        end
      else if c <? 32 then None
      else push c (jstring r)
  end.

(** Numbers: optional minus, an integer part without leading zeros, optional
    fraction, optional exponent. *)
Definition jdigit (c : char) : bool := (48 <=? c) && (c <=? 57).
Fixpoint span_digits (s : str) : str * str :=
  match s with
  | c :: r => if jdigit c then let '(d, t) := span_digits r in (c :: d, t) else ([], s)
  | [] => ([], [])
  end.
Definition opt_char (p : char -> bool) (s : str) : str * str :=
  match s with c :: r => if p c then ([c], r) else ([], s) | [] => ([], []) end.
Definition jnumber (s : str) : option (str * str) :=
  let '(sg, s1) := opt_char (fun c => c =? 45) s in
  let '(ip, s2) := span_digits s1 in
  match ip with
  | [] => None
  | d :: more =>
      if (d =? 48) && negb (match more with [] => true | _ => false end) then None else
      let '(dot, s3) := opt_char (fun c => c =? 46) s2 in
      let '(fr, s4) := match dot with [] => ([], s3) | _ => span_digits s3 end in
      match dot, fr with
      | _ :: _, [] => None
      | _, _ =>
          let '(e, s5) := opt_char (fun c => (c =? 101) || (c =? 69)) s4 in
          let '(es, s6) := match e with [] => ([], s5) | _ => opt_char (fun c => (c =? 43) || (c =? 45)) s5 end in
          let '(ex, s7) := match e with [] => ([], s6) | _ => span_digits s6 end in
          match e, ex with
          | _ :: _, [] => None
          | _, _ => Some (sg ++ ip ++ dot ++ fr ++ e ++ es ++ ex, s7)
          end
      end
  end.

Fixpoint strip_prefix (p s : str) : option str :=
  match p, s with
  | [], _ => Some s
  | x :: p', y :: s' => if x =? y then strip_prefix p' s' else None
  | _, _ => None
  end.

(** Values.  The fuel bounds the nesting plus the number of members; the length
    of the text is enough. *)
Fixpoint jvalue (fuel : nat) (s : str) : option (json * str) :=
  match fuel with
  | O => None
  | S f =>
      match skip_jws s with
      | [] => None
      | c :: r =>
          if c =? 34 then
            match jstring r with Some (x, t) => Some (JStr x, t) | None => None end
          else if c =? 123 then
            match skip_jws r with
            | 125 :: t => Some (JObj [], t)
            | t => match jmembers f t with Some (m, t') => Some (JObj m, t') | None => None end
            end
          else if c =? 91 then
            match skip_jws r with
            | 93 :: t => Some (JArr [], t)
            | t => match jelements f t with Some (m, t') => Some (JArr m, t') | None => None end
            end
          else match strip_prefix (lit "true") (c :: r) with Some t => Some (JBool true, t) | None =>
          match strip_prefix (lit "false") (c :: r) with Some t => Some (JBool false, t) | None =>
          match strip_prefix (lit "null") (c :: r) with Some t => Some (JNull, t) | None =>
          match jnumber (c :: r) with Some (n, t) => Some (JNum n, t) | None => None end end end end
      end
  end
(** The members of a non-empty object, up to and including the closing brace. *)
with jmembers (fuel : nat) (s : str) : option (list (str * json) * str) :=
  match fuel with
  | O => None
  | S f =>
      match skip_jws s with
      | 34 :: r =>
          match jstring r with
          | None => None
          | Some (k, t) =>
              match skip_jws t with
              | 58 :: t1 =>
                  match jvalue f t1 with
                  | None => None
                  | Some (v, t2) =>
                      match skip_jws t2 with
                      | 125 :: t3 => Some ([(k, v)], t3)
                      | 44 :: t3 =>
                          match jmembers f t3 with
                          | Some (m, t4) => Some ((k, v) :: m, t4)
                          | None => None
                          end
                      | _ => None
                      end
                  end
              | _ => None
              end
          end
      | _ => None
      end
  end
(** The elements of a non-empty array, up to and including the closing bracket. *)
with jelements (fuel : nat) (s : str) : option (list json * str) :=
  match fuel with
  | O => None
  | S f =>
      match jvalue f s with
      | None => None
      | Some (v, t) =>
          match skip_jws t with
          | 93 :: t1 => Some ([v], t1)
          | 44 :: t1 =>
              match jelements f t1 with Some (m, t2) => Some (v :: m, t2) | None => None end
          | _ => None
          end
      end
  end.

(** The value a whole JSON text denotes, if it is one. *)
Definition parse_json (s : str) : option json :=
  match jvalue (S (length s)) s with
  | Some (v, r) => match skip_jws r with [] => Some v | _ => None end
  | None => None
  end.

(** The first member with that name. *)
Fixpoint member_value (m : list (str * json)) (k : str) : option json :=
  match m with
  | [] => None
  | (k', v) :: r => if str_eq_dec k' k then Some v else member_value r k
  end.

(** The value of the last tag with that key. *)
Definition last_value (t : list (str * str)) (k : str) : option str :=
  fold_left (fun cur p => if str_eq_dec (fst p) k then Some (snd p) else cur) t None.

(** The parser is a JSON parser. *)
Example parse_json_ex1 :
  parse_json (lit " { ""a\u00e9\uD83D\ude00\/"" : [1, -2.5e+3, true, null, ""x""] , ""b"":{} } ")
  = Some (JObj [([97; 233; 128512; 47], JArr [JNum (lit "1"); JNum (lit "-2.5e+3"); JBool true; JNull; JStr (lit "x")]);
                (lit "b", JObj [])]).
Proof. reflexivity. Qed.
Example parse_json_ex2 :
  parse_json (lit "{""a"":1,}") = None /\ parse_json (lit "{""a"" 1}") = None
  /\ parse_json (lit "{a:1}") = None /\ parse_json (lit "[01]") = None
  /\ parse_json (lit "[""\ud83d""]") = None /\ parse_json (lit "[""\x""]") = None
  /\ parse_json (34 :: 10 :: [34]) = None /\ parse_json (lit "[1] 2") = None
  /\ parse_json (lit "") = None /\ parse_json (lit "[1.]") = None.
Proof. repeat split; reflexivity. Qed.
