(** generator/pattern/match.go: matching object names against the patterns of the
    pool, pool-exclude and ignoreUnknownFields options.
    Strings are lists of bytes.  The separator is '/' (47), the only one
    Match and ValidatePattern pass (match.go:54 and 397). *)
From Coq Require Import ZArith List Bool Lia.
Import ListNotations.
Open Scope Z_scope.

(** What Match returns: matched, not matched, ErrBadPattern.  [PPanic] is a run-time
    panic (index or slice out of range); [PFuel] means the fuel of the model ran out,
    which the theorems exclude. *)
Inductive pres := PYes | PNo | PBad | PPanic | PFuel.

(** unicode/utf8 constants RuneError and MaxRune. *)
Definition RuneError : Z := 65533.
Definition MaxRune : Z := 1114111.
Definition cont (b : Z) : bool := (128 <=? b) && (b <=? 191).
(** unicode/utf8.DecodeRuneInString (standard library, outside /repo; called at
    generator/pattern/match.go:85, 110, 120, 135, 143, 155, 215-216, 237, 251):
    the first rune and its width; (RuneError, 0) for the empty string, (RuneError, 1)
    for an invalid encoding. *)
Definition decode_rune (s : list Z) : Z * nat :=
  match s with
  | [] => (RuneError, 0%nat)
  | b0 :: s1 =>
    if b0 <? 128 then (b0, 1%nat) else
    if b0 <? 194 then (RuneError, 1%nat) else
    if b0 <? 224 then
      match s1 with
      | b1 :: _ => if cont b1 then ((b0 - 192) * 64 + (b1 - 128), 2%nat) else (RuneError, 1%nat)
      | _ => (RuneError, 1%nat)
      end else
    if b0 <? 240 then
      match s1 with
      | b1 :: b2 :: _ =>
        if (if b0 =? 224 then (160 <=? b1) && (b1 <=? 191) else if b0 =? 237 then (128 <=? b1) && (b1 <=? 159) else cont b1) && cont b2
        then ((b0 - 224) * 4096 + (b1 - 128) * 64 + (b2 - 128), 3%nat) else (RuneError, 1%nat)
      | _ => (RuneError, 1%nat)
      end else
    if b0 <? 245 then
      match s1 with
      | b1 :: b2 :: b3 :: _ =>
        if (if b0 =? 240 then (144 <=? b1) && (b1 <=? 191) else if b0 =? 244 then (128 <=? b1) && (b1 <=? 143) else cont b1) && cont b2 && cont b3
        then ((b0 - 240) * 262144 + (b1 - 128) * 4096 + (b2 - 128) * 64 + (b3 - 128), 4%nat) else (RuneError, 1%nat)
      | _ => (RuneError, 1%nat)
      end else
    (RuneError, 1%nat)
  end.

(** generator/pattern/match.go:337-353 indexNextAlt, 356-367 indexUnescapedByte and
    372-388 indexMatchedClosingAlt, with allowEscaping = true (the separator is not a
    backslash).  [i] is the index of the head of [s]. *)
Fixpoint indexNextAlt (s : list Z) (i : nat) (alts : Z) : option nat :=
  match s with
  | [] => None
  | c :: s' =>
    if c =? 92 then match s' with [] => None | _ :: s'' => indexNextAlt s'' (S (S i)) alts end
    else if c =? 123 then indexNextAlt s' (S i) (alts + 1)
    else if c =? 125 then indexNextAlt s' (S i) (alts - 1)
    else if (c =? 44) && (alts =? 1) then Some i
    else indexNextAlt s' (S i) alts
  end.
Fixpoint indexUnescapedByte (s : list Z) (c : Z) (i : nat) : option nat :=
  match s with
  | [] => None
  | b :: s' =>
    if b =? 92 then match s' with [] => None | _ :: s'' => indexUnescapedByte s'' c (S (S i)) end
    else if b =? c then Some i else indexUnescapedByte s' c (S i)
  end.
Fixpoint indexMatchedClosingAlt (s : list Z) (i : nat) (alts : Z) : option nat :=
  match s with
  | [] => None
  | c :: s' =>
    if c =? 92 then match s' with [] => None | _ :: s'' => indexMatchedClosingAlt s'' (S (S i)) alts end
    else if c =? 123 then indexMatchedClosingAlt s' (S i) (alts + 1)
    else if c =? 125 then (if alts - 1 =? 0 then Some i else indexMatchedClosingAlt s' (S i) (alts - 1))
    else indexMatchedClosingAlt s' (S i) alts
  end.

(** generator/pattern/match.go:427-440: from inside a character class to just after
    its closing bracket. *)
Fixpoint skip_class (s : list Z) : option (list Z) :=
  match s with
  | [] => None
  | c :: s' =>
    if c =? 92 then match s' with [] => None | _ :: s'' => skip_class s'' end
    else if c =? 93 then Some s' else skip_class s'
  end.
(** generator/pattern/match.go:401-457 doValidatePattern.  The loop index is replaced by
    the rest of the string; [fuel] is at least its length. *)
Fixpoint validate_loop (fuel : nat) (s : list Z) (altDepth : Z) : option bool :=
  match fuel with
  | O => None
  | S fuel =>
    match s with
    | [] => Some (altDepth =? 0)
    | c :: s' =>
      if c =? 92 then match s' with [] => Some false | _ :: s'' => validate_loop fuel s'' altDepth end
      else if c =? 91 then
        let s1 := match s' with b :: s'' => if (b =? 94) || (b =? 33) then s'' else s' | [] => s' end in
        match s1 with
        | [] => Some false
        | b :: _ => if b =? 93 then Some false
                    else match skip_class s1 with None => Some false | Some s2 => validate_loop fuel s2 altDepth end
        end
      else if c =? 123 then validate_loop fuel s' (altDepth + 1)
      else if c =? 125 then (if altDepth =? 0 then Some false else validate_loop fuel s' (altDepth - 1))
      else validate_loop fuel s' altDepth
    end
  end.
Definition doValidatePattern (s : list Z) : option bool := validate_loop (S (length s)) s 0.
(** generator/pattern/match.go:397-399 ValidatePattern. *)
Definition ValidatePattern (s : list Z) : bool := match doValidatePattern s with Some b => b | None => false end.

(** A Go slice expression s[i:]; out of range is a panic. *)
Definition from (s : list Z) (i : nat) : option (list Z) := if (i <=? length s)%nat then Some (skipn i s) else None.
(** A Go slice expression s[i:j]. *)
Definition between (s : list Z) (i j : nat) : option (list Z) :=
  if (i <=? j)%nat && (j <=? length s)%nat then Some (firstn (j - i) (skipn i s)) else None.
Definition is_str (a b : list Z) : bool := if list_eq_dec Z.eq_dec a b then true else false.

(** generator/pattern/match.go:183-201 and 307-321: try every alternative of the braces that open just
    before [patIdx] and close at [closing]: [run alt] is the recursive call for the
    alternative [alt].  Each round passes a comma, so [fuel] rounds are enough. *)
Fixpoint alternatives (fuel : nat) (run : list Z -> pres) (pattern : list Z) (patIdx closing : nat) : pres :=
  match fuel with
  | O => PFuel
  | S fuel =>
    match between pattern patIdx closing with
    | None => PPanic
    | Some s =>
      match indexNextAlt s 0 1 with
      | None => run s
      | Some comma =>
        match run (firstn comma s) with
        | PNo => alternatives fuel run pattern (patIdx + comma + 1) closing
        | r => r
        end
      end
    end
  end.

(** generator/pattern/match.go:290-333 isZeroLengthPattern. *)
Fixpoint isZeroLengthPattern (fuel : nat) (pattern : list Z) : pres :=
  match fuel with
  | O => PFuel
  | S fuel =>
    if is_str pattern [] || is_str pattern [42] || is_str pattern [42; 42] || is_str pattern [47; 42; 42] ||
       is_str pattern [42; 42; 47] || is_str pattern [47; 42; 42; 47] then PYes
    else match pattern with
    | [] => PPanic
    | c :: s =>
      if c =? 123 then
        match indexMatchedClosingAlt s 0 1 with
        | None => PBad
        | Some closing =>
          let closing := S closing in
          alternatives (S (length pattern)) (fun alt =>
            match from pattern (S closing) with
            | None => PPanic
            | Some post => isZeroLengthPattern fuel (alt ++ post)
            end) pattern 1 closing
        end
      else match doValidatePattern pattern with Some true => PNo | Some false => PBad | None => PFuel end
    end
  end.

(** generator/pattern/match.go:134-169: the loop over a character class; [last] is
    utf8.MaxRune when no range can start.  Returns whether the rune matched, and the
    index where the loop stopped.  (No slice expression in it can be out of range: the
    width of a rune is at most the length of the rest.) *)
Fixpoint class_loop (fuel : nat) (pattern : list Z) (nameRune : Z) (patIdx : nat) (last : Z) : option (bool * nat) :=
  match fuel with
  | O => None
  | S fuel =>
    match skipn patIdx pattern with
    | [] => Some (false, patIdx)
    | c :: _ =>
      if c =? 93 then Some (false, patIdx) else
      let '(patRune, w) := decode_rune (skipn patIdx pattern) in
      let patIdx := (patIdx + w)%nat in
      let next := skipn patIdx pattern in
      if (last <? MaxRune) && (patRune =? 45) && negb (match next with [] => true | d :: _ => d =? 93 end) then
        let patIdx := match next with d :: _ => if d =? 92 then S patIdx else patIdx | [] => patIdx end in
        let '(patRune, w) := decode_rune (skipn patIdx pattern) in
        let patIdx := (patIdx + w)%nat in
        if (last <=? nameRune) && (nameRune <=? patRune) then Some (true, patIdx)
        else class_loop fuel pattern nameRune patIdx MaxRune
      else
        let '(patRune, w) := if patRune =? 92 then decode_rune next else (patRune, 0%nat) in
        let patIdx := (patIdx + w)%nat in
        if patRune =? nameRune then Some (true, patIdx)
        else class_loop fuel pattern nameRune patIdx patRune
    end
  end.

(** generator/pattern/match.go:248-261: from a name index to just after the next
    separator. *)
Fixpoint next_segment (fuel : nat) (name : list Z) (i : nat) : option nat :=
  match fuel with
  | O => None
  | S fuel =>
    match skipn i name with
    | [] => None
    | s => let '(r, w) := decode_rune s in if r =? 47 then Some (i + w)%nat else next_segment fuel name (i + w)
    end
  end.

(** The variables of doMatchWithSeparator's loop (match.go:61-64).  The pairs of
    backtrack indices, which the code sets together, are [None] for -1. *)
Record mstate := MS { patIdx : nat; nameIdx : nat; startOfSegment : bool;
  doublestar : option (nat * nat); star : option (nat * nat) }.
(** What one pass over the switch does: return, go on, or break out of the switch to
    backtrack. *)
Inductive mstep := Return (r : pres) | Continue (s : mstate) | Break (s : mstate).

Section Match.
Variable rec : list Z -> list Z -> option (nat * nat) -> option (nat * nat) -> nat -> nat -> pres.
Variable pattern name : list Z.

(** generator/pattern/match.go:67-230: the switch on the current pattern byte. *)
Definition match_switch (st : mstate) : mstep :=
  match skipn (patIdx st) pattern with
  | [] => Break st
  | c :: rest =>
    if c =? 42 then (* 69-104 *)
      let single p := Continue (MS p (nameIdx st) false (doublestar st) (Some (p, nameIdx st))) in
      match rest with
      | [] => single (patIdx st + 1)%nat
      | d :: rest' =>
        if d =? 42 then
          if startOfSegment st then
            match rest' with
            | [] => Return PYes
            | _ => let '(patRune, w) := decode_rune rest' in
                   if patRune =? 47 then
                     let p := (patIdx st + 2 + w)%nat in
                     Continue (MS p (nameIdx st) true (Some (p, nameIdx st)) None)
                   else single (patIdx st + 2)%nat
            end
          else single (patIdx st + 2)%nat
        else single (patIdx st + 1)%nat
      end
    else if c =? 63 then (* 106-117 *)
      let '(nameRune, w) := decode_rune (skipn (nameIdx st) name) in
      if nameRune =? 47 then Break (MS (patIdx st) (nameIdx st) false (doublestar st) (star st))
      else Continue (MS (patIdx st + 1) (nameIdx st + w) false (doublestar st) (star st))
    else if c =? 91 then (* 119-188 *)
      match rest with
      | [] => Return PBad
      | b :: _ =>
        let '(nameRune, w) := decode_rune (skipn (nameIdx st) name) in
        let negate := (b =? 33) || (b =? 94) in
        let p := if negate then (patIdx st + 2)%nat else (patIdx st + 1)%nat in
        match skipn p pattern with
        | [] => Return PBad
        | b' :: _ =>
          if b' =? 93 then Return PBad else
          match class_loop (S (length pattern)) pattern nameRune p MaxRune with
          | None => Return PFuel
          | Some (matched, p) =>
            if eqb matched negate then
              if (length pattern <=? p)%nat then Return PBad
              else Break (MS p (nameIdx st) false (doublestar st) (star st))
            else
              match from pattern p with
              | None => Return PPanic
              | Some s =>
                match indexUnescapedByte s 93 0 with
                | None => Return PBad
                | Some closing => Continue (MS (p + closing + 1) (nameIdx st + w) false (doublestar st) (star st))
                end
              end
          end
        end
      end
    else if c =? 123 then (* 190-213 *)
      match indexMatchedClosingAlt rest 0 1 with
      | None => Return PBad
      | Some closing =>
        let closing := (closing + (patIdx st + 1))%nat in
        Return (alternatives (S (length pattern)) (fun alt =>
          match from pattern (S closing) with
          | None => PPanic
          | Some post => rec (firstn (patIdx st) pattern ++ alt ++ post) name (doublestar st) (star st) (patIdx st) (nameIdx st)
          end) pattern (patIdx st + 1) closing)
      end
    else (* 215-243 *)
      let p := if c =? 92 then (patIdx st + 1)%nat else patIdx st in
      match skipn p pattern with
      | [] => Return PBad
      | s =>
        let '(patRune, pw) := decode_rune s in
        let '(nameRune, nw) := decode_rune (skipn (nameIdx st) name) in
        if patRune =? nameRune then Continue (MS (p + pw) (nameIdx st + nw) (patRune =? 47) (doublestar st) (star st))
        else
          let p' := match p with O => p | S q => match nth_error pattern q with Some d => if d =? 92 then q else p | None => p end end in
          Break (MS p' (nameIdx st) (startOfSegment st) (doublestar st) (star st))
      end
  end.

(** generator/pattern/match.go:264-268: nothing to backtrack to. *)
Definition match_fail (st : mstate) : pres :=
  if (patIdx st <? length pattern)%nat then
    match doValidatePattern (skipn (patIdx st) pattern) with Some true => PNo | Some false => PBad | None => PFuel end
  else PNo.
(** generator/pattern/match.go:246-268: backtracking after the switch. *)
Definition match_backtrack (st : mstate) : mstep :=
  let ds :=
    match doublestar st with
    | Some (dp, dn) =>
      match next_segment (S (length name)) name dn with
      | Some i => Continue (MS dp i true (Some (dp, i)) (star st))
      | None => Return (match_fail st)
      end
    | None => Return (match_fail st)
    end in
  match star st with
  | Some (sp, sn) =>
    let '(nameRune, w) := decode_rune (skipn sn name) in
    if nameRune =? 47 then ds
    else Continue (MS sp (sn + w) false (doublestar st) (Some (sp, sn + w)%nat))
  | None => ds
  end.
(** generator/pattern/match.go:65-281: the loop, then the end of the name. *)
Fixpoint match_loop (fuel : nat) (st : mstate) : pres :=
  match fuel with
  | O => PFuel
  | S fuel =>
    if (nameIdx st <? length name)%nat then
      match match_switch st with
      | Return r => r
      | Continue st' => match_loop fuel st'
      | Break st' =>
        match match_backtrack st' with
        | Return r => r
        | Continue st'' => match_loop fuel st''
        | Break _ => PPanic
        end
      end
    else
      match from pattern (patIdx st) with
      | None => PPanic
      | Some s => isZeroLengthPattern (S (length s)) s
      end
  end.
End Match.

(** Fuel for the loop: more than the rounds it can make. *)
Definition loop_fuel (pattern name : list Z) : nat :=
  let w := (length pattern + length name + 2)%nat in (w * w * w)%nat.
(** generator/pattern/match.go:61-281 doMatchWithSeparator.  [depth] bounds the recursion
    through braces, each of which is on a shorter pattern. *)
Fixpoint doMatch (depth : nat) (pattern name : list Z) (ds st : option (nat * nat)) (pi ni : nat) : pres :=
  match depth with
  | O => PFuel
  | S depth => match_loop (doMatch depth) pattern name (loop_fuel pattern name) (MS pi ni true ds st)
  end.
(** generator/pattern/match.go:53-59 Match, matchWithSeparator. *)
Definition Match (pattern name : list Z) : pres := doMatch (S (length pattern)) pattern name None None 0 0.
