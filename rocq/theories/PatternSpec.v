(** The pattern syntax and what patterns match, after the comment at
    generator/pattern/match.go:10-52, independently of the matcher. *)
From Coq Require Import ZArith List Bool Lia.
From Verif Require Import Pattern.
Import ListNotations.
Open Scope Z_scope.

(** The characters of a string: Go's reading of it as UTF-8. *)
Fixpoint runes_n (n : nat) (s : list Z) : list Z :=
  match n with
  | O => []
  | S n => match s with [] => [] | _ => fst (decode_rune s) :: runes_n n (skipn (snd (decode_rune s)) s) end
  end.
Definition runes (s : list Z) : list Z := runes_n (length s) s.

(** Terms of a pattern without alternatives. *)
Inductive item :=
| Lit (c : Z)                                (* this character *)
| Any                                        (* ?  : one character other than '/' *)
| Class (neg : bool) (rs : list (Z * Z))     (* [] : one character in (or not in) the ranges *)
| Star                                       (* *  : any run of characters other than '/' *)
| Dirs                                       (* a segment that is just ** : zero or more directories *)
| Rest.                                      (* a last segment that is just ** : everything *)

Definition in_ranges (rs : list (Z * Z)) (r : Z) : bool := existsb (fun p => (fst p <=? r) && (r <=? snd p)) rs.
(** The items that match one character. *)
Definition takes (i : item) (r : Z) : bool :=
  match i with
  | Lit c => c =? r
  | Any => negb (r =? 47)
  | Class neg rs => xorb neg (in_ranges rs r)
  | _ => false
  end.

(** The inside of a character class, up to its closing bracket.  [last] is the
    character before, if a range can start with it. *)
Inductive klass : option Z -> list Z -> list (Z * Z) -> list Z -> Prop :=
| k_end last rest : klass last (93 :: rest) [] rest
| k_range lo hi rs l rest : hi <> 93 -> hi <> 92 -> klass None rs l rest -> klass (Some lo) (45 :: hi :: rs) ((lo, hi) :: l) rest
| k_range_esc lo hi rs l rest : klass None rs l rest -> klass (Some lo) (45 :: 92 :: hi :: rs) ((lo, hi) :: l) rest
| k_char last c rs l rest : c <> 93 -> c <> 92 -> c < MaxRune -> (c = 45 -> last = None \/ hd 0 rs = 93) ->
    klass (Some c) rs l rest -> klass last (c :: rs) ((c, c) :: l) rest
| k_esc last c rs l rest : c < MaxRune -> klass (Some c) rs l rest -> klass last (92 :: c :: rs) ((c, c) :: l) rest.

(** [parses b rs its]: the characters [rs] are the items [its]; [b] tells whether they
    start a segment (at the start of the pattern or after '/').
    Left out: a pattern that ends with "**/" inside a segment, and an escaped '/'. *)
Inductive parses : bool -> list Z -> list item -> Prop :=
| p_end b : parses b [] []
| p_lit b c rs its : ~ In c [42; 63; 91; 92; 123; 125] -> parses (c =? 47) rs its -> parses b (c :: rs) (Lit c :: its)
| p_esc b c rs its : c <> 47 -> parses false rs its -> parses b (92 :: c :: rs) (Lit c :: its)
| p_any b rs its : parses false rs its -> parses b (63 :: rs) (Any :: its)
| p_class b c rs l rest its : c <> 93 -> c <> 33 -> c <> 94 -> klass None (c :: rs) l rest -> parses false rest its ->
    parses b (91 :: c :: rs) (Class false l :: its)
| p_negclass b n c rs l rest its : n = 33 \/ n = 94 -> c <> 93 -> klass None (c :: rs) l rest -> parses false rest its ->
    parses b (91 :: n :: c :: rs) (Class true l :: its)
| p_star b rs its : hd 0 rs <> 42 -> parses false rs its -> parses b (42 :: rs) (Star :: its)
| p_rest : parses true [42; 42] [Rest]
| p_dirs rs its : parses true rs its -> parses true (42 :: 42 :: 47 :: rs) (Dirs :: its)
| p_stars b rs its : b = false \/ (rs <> [] /\ hd 0 rs <> 47) -> rs <> [47] -> parses false rs its -> parses b (42 :: 42 :: rs) (Star :: its).

(** Zero or more directories: nothing, or characters that end with '/'. *)
Definition dirs (x : list Z) : Prop := x = [] \/ exists y, x = y ++ [47].
(** [glob its n]: the items match the name [n].  A trailing "/**" or "/**/" may also
    match nothing. *)
Inductive glob : list item -> list Z -> Prop :=
| g_nil : glob [] []
| g_one i its r n : takes i r = true -> glob its n -> glob (i :: its) (r :: n)
| g_star x its n : ~ In 47 x -> glob its n -> glob (Star :: its) (x ++ n)
| g_dirs x its n : dirs x -> glob its n -> glob (Dirs :: its) (x ++ n)
| g_rest n : glob [Rest] n
| g_dir : glob [Lit 47; Rest] []
| g_dir_slash : glob [Lit 47; Dirs] [].

(** The ends of a pattern that match nothing once the name is used up. *)
Definition closing (its : list item) : Prop :=
  In its [[]; [Star]; [Dirs]; [Rest]; [Lit 47; Rest]; [Lit 47; Dirs]].
(** No other end of the pattern matches the empty name (no two wildcards in a row at
    the end, such as ***, **/* or */** ). *)
Definition calm (its : list item) : Prop := forall pre suf, its = pre ++ suf -> glob suf [] -> closing suf.
(** No class contains '/' (directly or by negation). *)
Definition flat (its : list item) : Prop := forall i, In i its -> takes i 47 = true -> i = Lit 47.
