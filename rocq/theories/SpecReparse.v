(** What the tokenizer does with a comment or string that is never closed: the vocabulary of
    C28. *)
From Coq Require Import String ZArith List.
From Verif Require Import Base Source GenTokenKind Tokenizer LongNames SpecText SpecMisc.
Import ListNotations.
Local Open Scope Z_scope.

Definition unterminated_kind (k : Z) : Prop :=
  k = TK_Error_UnterminatedComment \/ k = TK_Error_UnterminatedString \/
  k = TK_Error_UnterminatedFileString \/ k = TK_Error_UnterminatedLinearSyntaxBlob.

(** the text of lines given as (content, line break) *)
Definition joined (ls : list (list Z * list Z)) : list Z := concat (map (fun p => fst p ++ snd p) ls).

Definition blank (l : list Z * list Z) : Prop := fst l = [].

(** [cut starts ls result]: [ls] are the lines of the token and [starts] tells which lines look
    like the start of a new statement.  The lines up to the next one that starts a statement
    are looked at, and of those the ones up to the last that is not empty.  If that leaves one
    line because there was only one, the token keeps it, without its line break.  If it leaves
    one line because all others are empty, there is no result.  Otherwise the token keeps all
    but the last of them, without the last line break, but its reported end is the end of the
    last one.  The result gives the text kept and the text up to the reported end. *)
Definition stops (starts : list Z -> Prop) (others : list (list Z * list Z)) : Prop :=
  match others with [] => True | l :: _ => starts (fst l) end.
Inductive cut (starts : list Z -> Prop) : list (list Z * list Z) -> option (list Z * list Z) -> Prop :=
| cut_line : forall c n others,
    stops starts others -> cut starts ((c, n) :: others) (Some (c, c))
| cut_abort : forall c n blanks others,
    blanks <> [] -> Forall blank blanks -> Forall (fun l => ~ starts (fst l)) blanks -> stops starts others ->
    cut starts ((c, n) :: blanks ++ others) None
| cut_block : forall c0 n0 mid kept c n g m blanks others,
    (c0, n0) :: mid = kept ++ [(c, n)] -> g <> [] -> Forall blank blanks ->
    Forall (fun l => ~ starts (fst l)) (mid ++ (g, m) :: blanks) -> stops starts others ->
    cut starts ((c0, n0) :: mid ++ (g, m) :: blanks ++ others) (Some (joined kept ++ c, joined kept ++ c ++ n ++ g)).

(** ** Lines that look like the start of a statement *)

(** Unicode White_Space *)
Definition white_space (c : Z) : Prop :=
  9 <= c <= 13 \/ c = 0x20 \/ c = 0x85 \/ c = 0xA0 \/ c = 0x1680 \/ 0x2000 <= c <= 0x200A \/
  c = 0x2028 \/ c = 0x2029 \/ c = 0x202F \/ c = 0x205F \/ c = 0x3000.

Definition trivia_kind (k : Z) : Prop :=
  k = TK_ToplevelNewline \/ k = TK_InternalNewline \/ k = TK_Whitespace \/ k = TK_Comment.
Definition assigns (t : token) : Prop := t_kind t = TK_Equal \/ t_kind t = TK_ColonEqual.

(** white space within the line is not looked at *)
Definition looked_at (t : token) : Prop :=
  t_kind t = TK_Comment \/ ~ trivia_kind (t_kind t) \/ exists l, sp_start (t_src t) = LineCol l 1.

(** the functions whose calls always start a statement *)
Definition directives : list (list Z) := map bytes_of_string
  ["BeginPackage"; "Begin"; "Needs"; "End"; "EndPackage"; "Clear"; "ClearAll"; "SetOptions"; "SetAttributes";
   "System`Private`NewContextPath"; "System`Private`RestoreContextPath"; "Protect"; "Unprotect"; "Package";
   "PackageImport"; "PackageScope"; "PackageExport"; "Get"; "SetDelayed"; "UpSetDelayed"; "TagSetDelayed"]%string.

Inductive begins_statement : list token -> Prop :=
| begins_directive : forall f b r, t_kind f = TK_Symbol -> t_kind b = TK_OpenSquare -> In (t_text f) directives ->
    begins_statement (f :: b :: r)
| begins_definition : forall f b r, t_kind f = TK_Symbol -> t_kind b = TK_OpenSquare -> Exists assigns r ->
    begins_statement (f :: b :: r)
| begins_set : forall f a r, t_kind f = TK_Symbol -> assigns a -> begins_statement (f :: a :: r)
| begins_rest : forall f a r, t_kind f = TK_CloseSquare -> assigns a -> begins_statement (f :: a :: r)
| begins_heading : forall f r n ws e, t_kind f = TK_Comment -> Forall white_space ws ->
    t_text f = concat (repeat [40; 42] n) ++ encode ws ++ 58 :: e -> begins_statement (f :: r).

(** sublist of the tokens that are looked at *)
Inductive only_looked_at : list token -> list token -> Prop :=
| only_nil : only_looked_at [] []
| only_keep : forall t l l', looked_at t -> only_looked_at l l' -> only_looked_at (t :: l) (t :: l')
| only_drop : forall t l l', ~ looked_at t -> only_looked_at l l' -> only_looked_at (t :: l) l'.

(** the tokens of a line by itself, under the default options *)
Definition statement_line (default : opts) (line : list Z) : Prop :=
  exists ts s ts', tokenize_raw default NotScript line = Ok (ts, s) /\ only_looked_at ts ts' /\ begins_statement ts'.
