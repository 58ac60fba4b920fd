(** * Regular expressions of the grammar

    Python's [re] on texts of Unicode code points, for the operators used in
    asn1/grammar.py 22-32 and by textX for INT and STRICTFLOAT.  Arpeggio
    compiles them with re.MULTILINE and calls [match] at a position of the
    text.  [re] tries the alternatives in order, repetitions from the longest,
    and backtracks: [matches] lists what is left of the text after each way to
    match, in this order; the first one counts.  Groups are not captured.  A
    state is the character before the position, if any, and the rest of the
    text. *)
From Verif Require Import Base.

Inductive regex :=
| Class (f : N -> bool)           (* one character *)
| Then (a b : regex)
| Or (a b : regex)                (* a|b *)
| Star (a : regex)                (* a*, greedy *)
| Maybe (a : regex)               (* a?, greedy *)
| LineEnd                         (* $ *)
| Edge (word : N -> bool)         (* \b *)
| Behind (f : N -> bool)          (* (?<=[f]) *)
| NotAhead (f : N -> bool).       (* (?![f]) *)
Definition Plus (a : regex) : regex := Then a (Star a).

Definition state : Type := option N * list N.
Definition is_some (f : N -> bool) (o : option N) : bool := match o with Some c => f c | None => false end.

(** At most [n] repetitions, each consuming something. *)
Fixpoint repeat_match (step : state -> list state) (n : nat) (x : state) : list state :=
  match n with
  | O => [x]
  | S n' => (flat_map (repeat_match step n')
               (filter (fun y => List.length (snd y) <? List.length (snd x))%nat (step x)) ++ [x])%list
  end.
Fixpoint matches (r : regex) (x : state) : list state :=
  match r with
  | Class f => match snd x with c :: s => if f c then [(Some c, s)] else [] | [] => [] end
  | Then a b => flat_map (matches b) (matches a x)
  | Or a b => matches a x ++ matches b x
  | Star a => repeat_match (matches a) (List.length (snd x)) x
  | Maybe a => matches a x ++ [x]
  | LineEnd => match snd x with [] => [x] | c :: _ => if (c =? 10)%N then [x] else [] end
  | Edge word => if eqb (is_some word (fst x)) (is_some word (hd_error (snd x))) then [] else [x]
  | Behind f => if is_some f (fst x) then [x] else []
  | NotAhead f => if is_some f (hd_error (snd x)) then [] else [x]
  end%list.

(** What is left of [s], at which the character before is [p]. *)
Definition match_here (r : regex) (p : option N) (s : list N) : option (list N) :=
  option_map snd (hd_error (matches r (p, s))).

(** ** Character classes.  [\d] and [\w] depend on Unicode: [digit] and
    [word]. *)
Definition range (a b : N) (c : N) : bool := ((a <=? c) && (c <=? b))%N.
Definition char (a : ascii) (c : N) : bool := (c =? N_of_ascii a)%N.
Definition az : N -> bool := range 97 122.
Definition AZ : N -> bool := range 65 90.
Definition d09 : N -> bool := range 48 57.

Section Unicode.
Variables digit word : N -> bool.
(** [a-z\d]*(-[a-z\d]+)* *)
Definition name_class (c : N) : bool := az c || digit c.
Definition name_regex (first : N -> bool) : regex :=
  Then (Class first) (Then (Star (Class name_class)) (Star (Then (Class (char "-")) (Plus (Class name_class))))).
(** grammar.py 28, 32 *)
Definition name_lower_regex : regex := name_regex az.
Definition name_capital_regex : regex := name_regex AZ.
(** grammar.py 22: [%A-Za-z\d\/\^]+ *)
Definition unit_regex : regex := Plus (Class (fun c => char "%" c || AZ c || az c || digit c || char "/" c || char "^" c)).
(** grammar.py 24: [A-Za-z0-9\*\(\)\.\/%:, -_]+$; the last part of the class is
    the range from blank to underscore. *)
Definition comment_regex : regex :=
  Then (Plus (Class (fun c => AZ c || az c || d09 c || char "*" c || char "(" c || char ")" c || char "." c || char "/" c
                              || char "%" c || char ":" c || char "," c || range 32 95 c))) LineEnd.
(** textX: [-+]?[0-9]+\b *)
Definition int_regex : regex := Then (Maybe (Class (fun c => char "-" c || char "+" c))) (Then (Plus (Class d09)) (Edge word)).
(** textX, without the blank: [+-]?((\d+(\.(\d* )?)|(\.\d+))([eE][+-]?\d+)?|(\d+)([eE][+-]?\d+))(?<=[\w\.])(?![\w\.]) *)
Definition sign_regex : regex := Maybe (Class (fun c => char "+" c || char "-" c)).
Definition exponent_regex : regex := Then (Class (fun c => char "e" c || char "E" c)) (Then sign_regex (Plus (Class digit))).
Definition point_regex : regex := Class (char ".").
Definition strictfloat_regex : regex :=
  Then sign_regex
  (Then (Or (Then (Or (Then (Plus (Class digit)) (Then point_regex (Maybe (Star (Class digit)))))
                      (Then point_regex (Plus (Class digit))))
                  (Maybe exponent_regex))
            (Then (Plus (Class digit)) exponent_regex))
  (Then (Behind (fun c => word c || char "." c)) (NotAhead (fun c => word c || char "." c)))).
End Unicode.

(** The text of a string. *)
Definition codes (s : string) : list N := map N_of_ascii (list_ascii_of_string s).
