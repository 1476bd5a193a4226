(** What is said and suggested about unexpected and non-ASCII characters: utils.rs 274-400,
    long_names.rs 71-118, byte_decoder.rs 801-926, character_decoder.rs 1769-1856,
    tokenizer.rs 4781-4825.  The readers in ByteDecoder.v, CharDecoder.v and Tokenizer.v keep of
    an issue its tag, severity and place; here it is built whole.  Texts are the bytes of the
    Rust [String] ([encode] of the code points printed); confidence is in hundredths. *)
From Coq Require Import String ZArith List Bool.
From Verif Require Import Base Source GenLongNames GenAscii LongNames WLChar Format Link SpecText.
Import ListNotations.
Local Open Scope string_scope.
Local Open Scope list_scope.
Local Open Scope Z_scope.

Definition lit (s : string) : list Z := bytes_of_string s.
(** the double backticks around what is quoted in a label or a message *)
Definition ticked (t : list Z) : list Z := lit "``" ++ t ++ lit "``".

(** issue.rs 175-213 [CodeAction::replace_text], [CodeAction::delete_text], given code points *)
Definition replace_text (label : list Z) (src : span) (t : list Z) : action := mk_action (encode label) (ReplaceText (encode t)) src.
Definition delete_text (label : list Z) (src : span) : action := mk_action (encode label) DeleteText src.

(** long_names.rs 71-92 [asciiReplacements] *)
Definition asciiReplacements (point : Z) : list (list Z) :=
  if is_char point then
    match binary_search (fun e => fst e ?= point) ASCII_REPLACEMENTS (0, []) with
    | Some i => snd (nth i ASCII_REPLACEMENTS (0, []))
    | None => []
    end
  else [].

(** long_names.rs 94-118 [replacementGraphical] *)
Definition replacementGraphical (r : list Z) : list Z :=
  match r with
  | [32] => [0x2423]
  | [10] => [92; 110]
  | _ => r
  end.

(** the loop over [asciiReplacements]: byte_decoder.rs 838-847 and 904-913,
    character_decoder.rs 1825-1834 *)
Definition ascii_actions (point : Z) (src : span) : list action :=
  map (fun r => replace_text (lit "Replace with " ++ ticked (replacementGraphical r)) src r) (asciiReplacements point).

(** utils.rs 274-400 [certainCharacterReplacementActions] *)
Definition certain_actions (c : wlchar) (src : span) : res (list action) :=
  let other p name (delete : bool) :=
    rbind (safeAndGraphicalString c) (fun s1 => rbind (safeAndGraphicalString (wl p)) (fun s2 =>
      Ok (replace_text (lit "Replace " ++ ticked s1 ++ lit " with " ++ ticked s2) src
            (match wesc c with ENone => [p] | _ => 92 :: 91 :: lit name ++ [93] end)
          :: (if delete then [delete_text (lit "Delete " ++ ticked s1) src] else [])))) in
  switchl (wc c)
    [ ([CP_LONGNAME_COMPATIBILITYNOBREAK], other 0x2060 "NoBreak" false);
      ([CP_LONGNAME_RIGHTARROW; 0x279D], other 0xF522 "Rule" false);
      ([0x29F4], other 0xF51F "RuleDelayed" false);
      ([0x2061], other 0xF76D "InvisibleApplication" true);
      ([0x2063], other 0xF765 "InvisibleComma" false);
      ([0x2064], other 0xF39E "ImplicitPlus" false);
      ([0x200b], other 0xF360 "InvisibleSpace" false) ]
    (Ok []).

(** byte_decoder.rs 801-881 [ByteDecoder_strangeWarning]: the issue, if there is one *)
Definition strange_issue (decoded : Z) (start fin : loc) (pol : policy) : res (option wissue) :=
  rbind (safeAndGraphicalString (wl decoded)) (fun safe => rbind (graphicalString (wl decoded)) (fun g =>
  rbind (Span_new start fin) (fun src => rbind (certain_actions (wl decoded) src) (fun certain =>
  let actions := certain ++ replace_text (lit "Replace with " ++ ticked g) src g :: ascii_actions decoded src in
  let issue sev := mk_wissue "CodeParser`EncodingIssue" UnexpectedCharacter (encode (lit "Unexpected character: " ++ ticked safe ++ lit ".")) sev (SSpan src) 95 actions [] [] in
  if p_string pol then Ok (Some (issue Remark))
  else if isStrangeWhitespace decoded || isMBStrangeWhitespace decoded then Ok None
  else Ok (Some (issue Warning)))))).

(** byte_decoder.rs 883-926 [ByteDecoder_nonASCIIWarning] *)
Definition nonascii_issue (decoded : Z) (start fin : loc) : res wissue :=
  rbind (safeAndGraphicalString (wl decoded)) (fun safe => rbind (graphicalString (wl decoded)) (fun g =>
  rbind (Span_new start fin) (fun src =>
  let actions := replace_text (lit "Replace with " ++ ticked g) src g :: ascii_actions decoded src in
  Ok (mk_wissue "CodeParser`EncodingIssue" NonASCIICharacter (encode (lit "Non-ASCII character: " ++ ticked safe ++ lit ".")) Remark (SSpan src) 100 actions [] [])))).

(** character_decoder.rs 1769-1856 [check_strange_syntax_issue]: the issue about an escaped
    character, if there is one; [start] is the location after the backslash *)
Definition escaped_issue (pol : policy) (c : wlchar) (start fin : loc) : res (option wissue) :=
  let point := wc c in
  let build value :=
    rbind (loc_previous start) (fun b => rbind (graphicalString c) (fun g => rbind (Span_new b fin) (fun src =>
    rbind (certain_actions c src) (fun certain =>
    Ok (Some (mk_wissue "CodeParser`SyntaxIssue" UnexpectedCharacter (encode (lit "Unexpected character: " ++ ticked g ++ lit "."))
      (if p_string pol then Remark else Warning) (SSpan src) value (certain ++ ascii_actions point src) [] [])))))) in
  if isStrange point then if isStrangeWhitespace point then Ok None else build 95
  else if isMBStrange point then if isMBStrangeWhitespace point then Ok None else build 85
  else Ok None.

(** tokenizer.rs 4781-4825 [add_unexpected_char_issue] *)
Definition unexpected_char_issue (c : wlchar) (src : span) (tag : issue_tag) (confidence : Z) : res wissue :=
  rbind (certain_actions c src) (fun actions =>
  rbind (match tag with UnexpectedNewlineCharacter => graphicalString c | _ => safeAndGraphicalString c end) (fun formatted =>
  rbind (match tag with
         | UnexpectedSpaceCharacter => Ok "space" | UnexpectedLetterlikeCharacter => Ok "letterlike" | UnexpectedNewlineCharacter => Ok "newline"
         | _ => Panic end) (fun type =>
  Ok (mk_wissue "CodeParser`SyntaxIssue" tag (encode (lit "Unexpected " ++ lit type ++ lit " character: " ++ ticked formatted ++ lit ".")) Warning (SSpan src) confidence actions [] [])))).
