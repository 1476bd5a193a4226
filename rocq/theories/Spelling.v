(** What is said and suggested about a backslash that begins no escape: character_decoder.rs
    301-378, 393-525, 585-640 and its three copies, 1064-1369, 1743-1765.  As in Suggestions.v,
    CharDecoder.v keeps of an issue its tag, severity and place; here it is built whole.  Pieces
    of the text are given as their bytes. *)
From Coq Require Import String ZArith List Bool Arith.
From Verif Require Import Base Source GenLongNames LongNames WLChar Format Decode Link SpecText Suggestions.
Import ListNotations.
Local Open Scope string_scope.
Local Open Scope list_scope.
Local Open Scope Z_scope.

(** The crate [edit_distance] is not part of the repository.  It is taken to compute what its
    documentation says, the Levenshtein distance of the characters, row by row: [row a b] has
    the distances of [a] and each suffix of [b]. *)
Fixpoint next_row (x : Z) (b : list Z) (r : list nat) : list nat :=
  match b, r with
  | y :: b', d :: r' =>
      let t := next_row x b' r' in
      (if x =? y then hd O r' else S (Nat.min (hd O r') (Nat.min d (hd O t)))) :: t
  | _, _ => [S (hd O r)]
  end.
Fixpoint last_row (b : list Z) : list nat :=
  match b with [] => [O] | _ :: b' => let r := last_row b' in S (hd O r) :: r end.
Fixpoint row (a b : list Z) : list nat :=
  match a with [] => last_row b | x :: a' => next_row x b (row a' b) end.
Definition edit_distance (a b : list Z) : nat := hd O (row a b).

(** Rust's [Iterator::min_by_key]: the first of the least elements *)
Fixpoint min_by_key {A} (f : A -> nat) (best : A) (k : nat) (l : list A) : A :=
  match l with
  | [] => best
  | x :: r => let kx := f x in if (kx <? k)%nat then min_by_key f x kx r else min_by_key f best k r
  end.

(** the names of CODEPOINT_TO_LONGNAME_MAP *)
Definition NAMES : list (list Z) := Eval vm_compute in map (fun e => bytes_of_string (snd e)) CODEPOINT_TO_LONGNAME.

(** character_decoder.rs 1743-1765 [CharacterDecoder_longNameSuggestion], given the characters *)
Definition longNameSuggestion (input : list Z) : list Z :=
  match NAMES with
  | n :: r => let closest := min_by_key (edit_distance input) n (edit_distance input n) r in
      if (edit_distance input closest <=? 2)%nat then closest else []
  | [] => []
  end.

(** the characters of a piece of the text (Rust's [str::chars]) *)
Fixpoint chars_of (fuel : nat) (bs : list Z) : list Z :=
  match fuel, bs with
  | S k, _ :: _ => dchar (decode bs) :: chars_of k (drest (decode bs))
  | _, _ => []
  end.
Definition chars (bs : list Z) : list Z := chars_of (length bs) bs.

Definition replace_bytes (label : list Z) (src : span) (t : list Z) : action := mk_action label (ReplaceText t) src.
Definition insert_bytes (label : list Z) (src : span) (t : list Z) : action := mk_action label (InsertText t) src.
Definition syntax_issue (tag : issue_tag) (msg : list Z) (sev : severity) (src : span) (val : Z) (actions : list action) (descs : list (list Z)) : wissue :=
  mk_wissue "CodeParser`SyntaxIssue" tag msg sev (SSpan src) val actions descs [].
(** source.rs [Span::at] *)
Definition Span_at (l : loc) : span := mkspan l l.

(** character_decoder.rs 321-350: something like \[Alpha *)
Definition unclosed_issue (name : list Z) (src : span) : wissue :=
  syntax_issue UnhandledCharacter (lit "Unhandled character: " ++ ticked (lit "\[" ++ name) ++ lit ".") Fatal src 100
    (match longname_to_codepoint name with
     | Some _ => [insert_bytes (lit "Insert ``]`` to form " ++ ticked (lit "\[" ++ longNameSuggestion (chars name) ++ lit "]")) (Span_at (sp_end src)) (lit "]")]
     | None => []
     end) [].

(** 351-378: something like \[! and 600-630, 700-730, 805-835, 910-940: not enough digits.
    [head] is what stands between the backslash and [body] *)
Definition doubled_issue (head body : list Z) (src : span) : wissue :=
  syntax_issue UnhandledCharacter (lit "Unhandled character: " ++ ticked (lit "\" ++ head ++ body) ++ lit ".") Fatal src 100
    [replace_bytes (lit "Replace with " ++ ticked (lit "\\" ++ head ++ body)) src (lit "\\" ++ head ++ body)] [].

(** 431-525: the name is not known.  [scan]: it stands behind two backslashes *)
Definition unknown_issue (scan : bool) (name : list Z) (src : span) : wissue :=
  let slashes := if scan then lit "\\[" else lit "\[" in
  let suggestion := longNameSuggestion (chars name) in
  let actions := match suggestion with [] => [] | _ => [replace_bytes (lit "Replace with " ++ ticked (slashes ++ suggestion ++ lit "]")) src (slashes ++ suggestion ++ lit "]")] end in
  let descs := [ticked name ++ lit " is not a valid long name."] in
  if scan then syntax_issue UnrecognizedLongName (lit "Unrecognized longname: " ++ ticked (slashes ++ name ++ lit "]") ++ lit ".") Error src 75 actions descs
  else syntax_issue UnhandledCharacter (lit "Unhandled character: " ++ ticked (slashes ++ name ++ lit "]") ++ lit ".") Fatal src 100 actions descs.

(** 1126-1163: something like \Alpha], where [start] is the place of the backslash *)
Definition unopened_issue (name : list Z) (src : span) : wissue :=
  syntax_issue UnhandledCharacter (lit "Unhandled character " ++ ticked (lit "\" ++ name ++ lit "]") ++ lit ".") Fatal src 100
    [insert_bytes (lit "Insert ``[`` to form " ++ ticked (lit "\[" ++ name ++ lit "]")) (Span_at (loc_next (sp_start src))) (lit "[")] [].

(** 1164-1355: anything else; [c] is the character behind the backslash *)
Definition other_issue (c : Z) (src : span) : res (option wissue) :=
  let made g mark actions := Some (syntax_issue UnhandledCharacter (encode (lit "Unhandled character " ++ ticked (lit mark ++ g) ++ lit ".")) Fatal src 100 actions []) in
  let template g a b := replace_text (lit "Replace with " ++ ticked (lit a ++ g ++ lit b)) src (lit a ++ g ++ lit b) in
  if src_isUpper c then
    rbind (graphicalString (wl c)) (fun g =>
      Ok (made g "\" (template g "\[" "XXX]" :: if src_isHex c then [template g "\:" "XXX"] else [])))
  else if src_isHex c then rbind (graphicalString (wl c)) (fun g => Ok (made g "\" [template g "\:" "xxx"]))
  else if (c =? EndOfFile) || isMBUnsafeUTF8Sequence c then Ok None
  else rbind (graphicalString (wl c)) (fun g =>
    if 1 <? zlen (encode g) then Ok (made g "\\" [])
    else Ok (made g "\" [template g "\\" ""])).

(** The issue about a backslash and the text [t] behind it that begins no escape
    (character_decoder.rs 237-562, 564-994, 1064-1369) *)
Inductive bad_escape (src : span) : list Z -> wissue -> Prop :=
| be_unclosed : forall name, src_isUpper (hd 0 name) = true -> bad_escape src (91 :: name) (unclosed_issue name src)
| be_malformed : forall body, src_isUpper (hd 0 body) = false -> bad_escape src (91 :: body) (doubled_issue [91] body src)
| be_unknown : forall name, longname_to_codepoint name = None -> bad_escape src (91 :: name ++ [93]) (unknown_issue false name src)
| be_digits : forall head body, In head [[58]; [46]; [124]] \/ head = [] /\ src_isOctal (hd 0 body) = true -> bad_escape src (head ++ body) (doubled_issue head body src)
| be_unopened : forall name p, longname_to_codepoint name = Some p -> bad_escape src (name ++ [93]) (unopened_issue name src)
| be_other : forall c w, other_issue c src = Ok (Some w) -> bad_escape src (encode [c]) w.
