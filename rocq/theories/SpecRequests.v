(** What a kernel may ask, and what it is answered: the specification for C75. *)
From Coq Require Import String.
From Coq Require Import ZArith List Bool.
From Verif Require Import Base Source SpecText SpecReader LongNames Tokenizer SpecTokenizer Utils Cst Link SpecLink Requests.
Import ListNotations.
Local Open Scope string_scope.
Local Open Scope list_scope.
Local Open Scope Z_scope.

(** ** Questions *)

Definition int (n : Z) : item := IExpr (EInt n).

(** the number of a session *)
Definition session_arg (i : item) : Prop := exists n, i = int n /\ 0 <= n < 2 ^ 63.

(** [option_args normal cv tab first qk o b]: the source convention, the tab width, what to do with
    the first line and the settings mean the options [o] and [b]; settings must be readable, and
    matter only to what is done with trees later. *)
Inductive option_args (alnum : Z -> bool) (normal : bool) : item -> item -> item -> item -> opts -> first_line -> Prop :=
| oa : forall cv tab b e q, 0 <= tab < 2 ^ 32 -> quirks_of e = some q ->
    option_args alnum normal (int (match cv with ConvLineColumn => 0 | ConvCharacterIndex => 1 end)) (int tab)
      (int (match b with NotScript => 0 | CheckFirst => 1 | Script => 2 end)) (IExpr e)
      (mkopts cv tab true true normal alnum) b.

(** parse these bytes; find the tokens of these bytes *)
Inductive bytes_request (alnum : Z -> bool) : list item -> list Z -> opts -> first_line -> Prop :=
| br : forall s input cv tab first qk o b, session_arg s -> option_args alnum true cv tab first qk o b ->
    bytes_request alnum [s; IBytes input; cv; tab; first; qk] input o b.

(** what is the first token of these bytes, read as usual, as a tag or as the name of a file *)
Inductive leaf_request (alnum : Z -> bool) : list item -> list Z -> stringify_mode -> opts -> first_line -> Prop :=
| lr : forall s input m enc cv tab first qk o b, session_arg s ->
    option_args alnum (match enc with EncNormal => true | EncBox => false end) cv tab first qk o b ->
    leaf_request alnum [s; IBytes input; int (match m with StrNormal => 0 | StrTag => 1 | StrFile => 2 end); cv; tab; first;
                        int (match enc with EncNormal => 0 | EncBox => 1 end); qk] input m o b.

(** the way of reading that is asked for: see SpecTokenizer *)
Definition asked_for (m : stringify_mode) : request := match m with StrNormal => AsToken false TOPLEVEL | StrTag => AsTag | StrFile => AsFile end.

(** ** Answers *)

(** Exactly one expression is sent, and it has the form [form ab], where [ab] says whether the kernel
    asked to abort. *)
Definition answers (q : list bool) (ps : list packet) (form : bool -> expr -> Prop) : Prop :=
  exists e, denotes ps e /\ (forall e', denotes ps e' -> e' = e) /\ form (existsb (fun b => b) q) e.

Definition missing_answer (u : unsafe_encoding) : expr := fn "System`List" [missing_form (UnsafeEncoding u)].
Definition places_form (tx : texts) (l : list loc) : expr := fn "System`List" (map place_form (tx_order tx l)).
(** fatal issues hide the others *)
Definition shown_issues (g : logs) : list issue := match l_fatal g with [] => l_nonfatal g | _ => l_fatal g end.

(** What is told of an issue: its own kind, severity and place, and the texts that go with it. *)
Definition told (tx : texts) (i : issue) (w : wissue) : Prop :=
  wi_tag w = i_tag i /\ wi_sev w = i_sev i /\ wi_src w = SSpan (i_src i) /\ wi_make w = tx_make tx i /\ wi_msg w = tx_msg tx i /\
  wi_val w = tx_val tx i /\ wi_actions w = tx_actions tx i /\ wi_descs w = tx_descs tx i /\ wi_more w = [].
Definition issue_shown (compat : bool) (tx : texts) (i : issue) (e : expr) : Prop := exists w, told tx i w /\ issue_form compat w e.

(** Six elements: nodes, or why there are none; issues; and four lists of places. *)
Definition report_form (compat : bool) (tx : texts) (g : logs) (first : expr -> Prop) (e : expr) : Prop :=
  exists es issues, first es /\ Forall2 (issue_shown compat tx) (shown_issues g) issues /\
    e = fn "System`List" [es; fn "System`List" issues; places_form tx (l_simple_lc g); places_form tx (l_complex_lc g);
                          places_form tx (l_embedded_newlines g); places_form tx (l_embedded_tabs g)].

(** Nodes for well-formed bytes, else the reason. *)
Definition nodes_or_reason (compat ab : bool) (input : list Z) (nodes : list node) (es : expr) : Prop :=
  (well_formed_no_bom input -> seq_form compat ab nodes es) /\ (~ well_formed_no_bom input -> exists u, es = missing_answer u).

(** The places of what can be done about an issue are places. *)
Definition sound_texts (tx : texts) : Prop :=
  forall i, Forall (fun a => loc_leb (sp_start (ac_src a)) (sp_end (ac_src a)) = Some true) (tx_actions tx i).
