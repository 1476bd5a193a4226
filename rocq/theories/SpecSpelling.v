(** Misspelled names of characters, and backslashes that begin no escape. *)
From Coq Require Import String ZArith List Bool.
From Verif Require Import Base Source WLChar LongNames GenLongNames ByteDecoder CharDecoder Link SpecText SpecReader SpecSuggestions.
Import ListNotations.
Local Open Scope string_scope.
Local Open Scope list_scope.
Local Open Scope Z_scope.

(** [edits n a b]: the text [a] becomes [b] when [n] characters are replaced, left out or put in. *)
Inductive edits : nat -> list Z -> list Z -> Prop :=
| ed_end : edits 0 [] []
| ed_keep : forall n x a b, edits n a b -> edits n (x :: a) (x :: b)
| ed_replace : forall n x y a b, edits n a b -> edits (S n) (x :: a) (y :: b)
| ed_leave_out : forall n x a b, edits n a b -> edits (S n) (x :: a) b
| ed_put_in : forall n y a b, edits n a b -> edits (S n) a (y :: b).

(** [n] is the name of some character in the table of names. *)
Definition name_of (n : list Z) (p : Z) : Prop := exists m, In (p, m) CODEPOINT_TO_LONGNAME /\ n = bytes_of_string m.
Definition a_name (n : list Z) : Prop := exists p, name_of n p.
(** No other name is nearer to [t]. *)
Definition nearest (t n : list Z) : Prop := a_name n /\ forall m k, a_name m -> edits k t m -> exists j, (j <= k)%nat /\ edits j t n.
Definition near (t n : list Z) : Prop := exists k, (k <= 2)%nat /\ edits k t n.

(** The text [t] is read as an escaped backslash, with [r] left over. *)
Definition reads_as_backslash (t r : list Z) : Prop :=
  forall o pol input s, 0 < o_tab_width o -> reachable o input s -> p_scan pol = false -> rest (cur s) = t ->
    exists s', next_wolfram_char o pol s = Ok (mkwl StringMeta_Backslash ESingle, s') /\ rest (cur s') = r.

(** What is offered instead of the backslash and the text [t] behind it, in front of [r]: a name that
    is known and near, a template to be filled in, or the backslash taken as a character. *)
Definition lit_ (s : string) : list Z := bytes_of_string s.
Definition template (t x : list Z) : Prop :=
  exists c, t = [c] /\ ((65 <= c <= 90 /\ x = lit_ "\[" ++ c :: lit_ "XXX]") \/
    (is_hex_digit c = true /\ (x = lit_ "\:" ++ c :: lit_ "XXX" \/ x = lit_ "\:" ++ c :: lit_ "xxx"))).
Definition renamed (t x : list Z) : Prop := exists n p, x = 92 :: 91 :: n ++ [93] /\ name_of n p /\ spells x p /\ hd 0 t = 91.
Definition helps (start fin : loc) (t r : list Z) (a : action) : Prop :=
  match ac_kind a with
  | ReplaceText x => ac_src a = mkspan start fin /\ (renamed t x \/ reads_as_backslash (x ++ r) (t ++ r) \/ template t x)
  | InsertText x => (ac_src a = mkspan fin fin /\ exists p, spells (92 :: t ++ x) p) \/
                    (ac_src a = mkspan (loc_next start) (loc_next start) /\ exists p, spells (92 :: x ++ t) p)
  | DeleteText => False
  end.
(** An issue about the backslash and [t] *)
Definition about_escape (start fin : loc) (t r : list Z) (w : wissue) : Prop :=
  wi_tag w = UnhandledCharacter /\ wi_sev w = Fatal /\ wi_src w = SSpan (mkspan start fin) /\ Forall (helps start fin t r) (wi_actions w).
(** Nothing is said about a backslash at the end of the text, in front of malformed text, and about a
    number beyond the last character. *)
Definition silent (r : list Z) : Prop :=
  r = [] \/ (forall d t, scalar d -> d <> BOM_CHAR -> r <> utf8 d ++ t) \/
  exists ds r', r = 124 :: ds ++ r' /\ hex_string 6 ds /\ 0x10ffff < number 16 ds.
(** Where there is nothing to offer: a name that is not known and lacks its bracket, a name no known one
    is near to ([cs] gives the characters of a name), and a character that is not visible in ASCII. *)
Definition nothing_to_offer (cs : list Z -> list Z) (t : list Z) : Prop :=
  (exists n, t = 91 :: n /\ 65 <= hd 0 n <= 90 /\ ~ a_name n) \/
  (exists n, t = 91 :: n ++ [93] /\ forall m, a_name m -> ~ near (cs n) m) \/
  exists c, t = encode [c] /\ ~ (32 <= c <= 126).
