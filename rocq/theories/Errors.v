(** Model of the error values of the program: what fmt.Errorf wraps, what errors.Is finds, and
    which errors each function returns.  Only the identity of an error is modelled, not its
    text.  The table [returns] lists the return statements with an error; whether one is
    reached is not part of it (the link with the other models is in ThmErrors.v). *)
From Verif Require Import Base Index DocSpec Parser Loader.
From stdpp Require Import list.

(** The error values declared by the packages: internal/index/item_def.go:13,
    constants.go:8-11; pkg/opencorpora/errors.go:7, parser.go:17; pkg/storage/errors.go:8,
    set8.go:12, set16.go:12; pkg/dag/name.go:21, index.go:8; pkg/common/errors.go:8-9. *)
Inductive sentinel :=
| SIndex | SNilWriter | SNilReader | SOpencorpora | SStop | SStorage | SSet8 | SSet16
| SGrammar | SDagIndex | SUnmarshal | SMarshal.
Global Instance sentinel_eq_dec : EqDecision sentinel.
Proof. solve_decision. Defined.

(** An error: a declared one, one of another package (os, io, net/http, encoding/xml,
    binutils), a new text without %w, or a text around another error (%w).  An error of
    another package is taken to wrap none of the declared ones. *)
Inductive error := Declared (s : sentinel) | Foreign (n : N) | Text | Around (e : error).
Global Instance error_eq_dec : EqDecision error.
Proof. solve_decision. Defined.

(** Some declared errors are made with %w from another one: constants.go:8, :11,
    parser.go:17, set8.go:12, set16.go:12. *)
Definition unwrap (e : error) : option error :=
  match e with
  | Declared SNilWriter | Declared SNilReader => Some (Declared SIndex)
  | Declared SStop => Some (Declared SOpencorpora)
  | Declared SSet8 | Declared SSet16 => Some (Declared SStorage)
  | Around e1 => Some e1
  | _ => None
  end.
(** errors.Is of the standard library: compare, then unwrap and try again. *)
Fixpoint is_err (e t : error) : bool :=
  bool_decide (e = t) ||
  match e with
  | Around e1 => is_err e1 t
  | Declared SNilWriter | Declared SNilReader => bool_decide (Declared SIndex = t)
  | Declared SStop => bool_decide (Declared SOpencorpora = t)
  | Declared SSet8 | Declared SSet16 => bool_decide (Declared SStorage = t)
  | _ => false
  end.

(** The functions with an error result. *)
Inductive func :=
| FItemRead | FItemWrite | FItemsRead | FItemsWrite
| FTagSetRead | FTagSetWrite | FTagSetReadFrom | FTagSetWriteTo
| FTableRead | FTableWrite | FSetsRead | FSetsWrite
| FCollectionRead | FCollectionWrite | FColTableRead | FColTableWrite | FColsRead | FColsWrite
| FSecTagsRead | FSecTagsWrite | FSecSetsRead | FSecSetsWrite
| FSecColsRead | FSecColsWrite | FSecItemsRead | FSecItemsWrite
| FIndexRead | FIndexWrite
| FGet | FAddToNode | FAddRunes | FAddString
| FFetchFromItem | FFetchItemFromParent | FFetchRunes | FFetchString
| FTagSet | FVariants | FAddTagSet
| FNameMarshal | FNameUnmarshal | FNameRead | FNameWrite | FTagRead | FTagWrite
| FTagsRead | FTagsWrite | FSplitPath
| FMakePath
| FGetAttr | FGetIntAttr | FProcessElem | FHandlerStart | FHandlerEnd
| FStart | FChars | FEnd | FParseXML
| FIsRequired | FDownload | FUnpack | FLoad | FSave | FParseUpdate | FUpdate | FPush
| FSet8Read | FSet8Write | FSet16Read | FSet16Write.
Global Instance func_eq_dec : EqDecision func.
Proof. solve_decision. Defined.

(** A return statement: a text around a declared error, which forgets the cause
    ("%w: ...: %v"); a declared error itself; a new text; an error of another package as it
    is, or with a text around it ("%v: ...: %w"); the error of another function as it is,
    with a text around it, or so unless errors.Is finds a certain one in it. *)
Inductive ret :=
| Forget (s : sentinel) | Itself (s : sentinel) | New | Out | AroundOut
| Keep (f : func) | AroundOf (f : func) | AroundUnless (s : sentinel) (f : func).

Definition returns (f : func) : list ret :=
  match f with
  (* internal/index/item_def.go:28-44, :53-66 *)
  | FItemRead => [Out]
  | FItemWrite => [Out]
  (* items.go:32-40, :50-57 *)
  | FItemsRead => [Out; Keep FItemRead]
  | FItemsWrite => [Forget SIndex; Keep FItemWrite]
  (* tagset_def.go:41-47, :60-65, :130-138, :115 *)
  | FTagSetRead => [Forget SIndex]
  | FTagSetWrite => [Forget SIndex]
  | FTagSetReadFrom => [AroundOut]
  | FTagSetWriteTo => [Keep FTagSetWrite]
  (* tagset_table.go:36-46, :58-66 *)
  | FTableRead => [Forget SIndex]
  | FTableWrite => [Forget SIndex; Keep FTagSetWrite]
  (* tagset_index.go:65-77, :44-53 *)
  | FSetsRead => [Forget SNilReader; Forget SIndex]
  | FSetsWrite => [Forget SNilWriter; Forget SIndex; Keep FTableWrite]
  (* variant_def.go:53-59, :31-36; variant_table.go:37-43, :18-23; variant_idx.go:37-43, :18-23 *)
  | FCollectionRead | FCollectionWrite => [Forget SIndex]
  | FColTableRead | FColTableWrite => [Forget SIndex]
  | FColsRead | FColsWrite => [Forget SIndex]
  (* idx.go:90-97, :74-77, :124-131, :108-111, :158-165, :142-145, :192-199, :176-179 *)
  | FSecTagsRead | FSecTagsWrite | FSecSetsRead | FSecSetsWrite => [Forget SIndex]
  | FSecColsRead | FSecColsWrite | FSecItemsRead | FSecItemsWrite => [Forget SIndex]
  (* idx.go:224-235, :53-64 *)
  | FIndexRead => [Forget SIndex; Keep FSecItemsRead]
  | FIndexWrite => [Keep FSecTagsWrite; Keep FSecSetsWrite; Keep FSecColsWrite; Keep FSecItemsWrite]
  (* idx.go:282, :399-419, :245, :251-254, :366-382, :333-345, :260, :266 *)
  | FGet => [Forget SIndex]
  | FAddToNode => [Forget SIndex; Keep FGet]
  | FAddRunes => [Keep FAddToNode]
  | FAddString => [Forget SIndex; Keep FAddRunes]
  | FFetchFromItem => [Forget SIndex; Keep FGet]
  | FFetchItemFromParent => [Forget SIndex]
  | FFetchRunes => [Keep FFetchFromItem]
  | FFetchString => [Keep FFetchRunes]
  (* idx.go:474, :577-579 (its error stays nil), node.go:58 *)
  | FTagSet => [New]
  | FVariants => []
  | FAddTagSet => [Forget SIndex]
  (* pkg/dag/name.go:75, :83, :33-37, :50-54; tag.go:38-42, :23-27; idx.go:50-57, :69-75; utils.go:23-36 *)
  | FNameMarshal | FNameUnmarshal => [Forget SGrammar]
  | FNameRead => [Forget SGrammar; Keep FNameUnmarshal]
  | FNameWrite => [Keep FNameMarshal; Forget SGrammar]
  | FTagRead | FTagWrite => [Forget SGrammar]
  | FTagsRead => [Forget SUnmarshal]
  | FTagsWrite => [Forget SMarshal]
  | FSplitPath => [Forget SDagIndex]
  (* pkg/common/utils.go:24-28 *)
  | FMakePath => [Out]
  (* pkg/opencorpora/xmlutils.go:18 and :44, :27-31 and :51-55; dictionary.go:36-40 *)
  | FGetAttr => [New]
  | FGetIntAttr => [Keep FGetAttr; New]
  | FProcessElem => [Forget SOpencorpora]
  (* the processStart and processEnd functions, parser.go:186, :200, :232, :248, :268-271, :322, :339;
     :283, :287, :307 *)
  | FHandlerStart => [Keep FProcessElem; Forget SOpencorpora]
  | FHandlerEnd => [AroundOf FAddString; AroundOf FAddTagSet; Itself SStop]
  (* parser.go:114-121, :128, :144-158; the processData functions return nil *)
  | FStart => [Forget SOpencorpora; Keep FHandlerStart]
  | FChars => [Forget SOpencorpora]
  | FEnd => [Forget SOpencorpora; Keep FHandlerEnd]
  (* libxml.ParseXMLFile (not in the repository): its own errors, or that of the parser as it is *)
  | FParseXML => [Out; Keep FStart; Keep FChars; Keep FEnd]
  (* loader.go:136-141, :166-200, :214-232, :245-266, :278-303, :318-327, :348-389 *)
  | FIsRequired => [Out; New]
  | FDownload => [Keep FIsRequired; Keep FMakePath; Out]
  | FUnpack => [Keep FMakePath; Out]
  | FLoad => [Forget SOpencorpora]
  | FSave => [Forget SOpencorpora]
  | FParseUpdate => [Forget SOpencorpora; AroundUnless SStop FParseXML; Keep FSave]
  | FUpdate => [Keep FIsRequired; Keep FDownload; Keep FUnpack; Keep FParseUpdate]
  (* lemma_item.go:41 *)
  | FPush => [New]
  (* pkg/storage/set8.go:91-99, :63-70; set16.go:91-99, :63-70 *)
  | FSet8Read => [AroundOut]
  | FSet8Write => [Forget SSet8; AroundOut]
  | FSet16Read => [AroundOut]
  | FSet16Write => [Forget SSet16; AroundOut]
  end.

(** The errors a function can return according to the table. *)
Inductive gives : func -> error -> Prop :=
| gives_forget f s : Forget s ∈ returns f -> gives f (Around (Declared s))
| gives_itself f s : Itself s ∈ returns f -> gives f (Declared s)
| gives_new f : New ∈ returns f -> gives f Text
| gives_out f n : Out ∈ returns f -> gives f (Foreign n)
| gives_around_out f n : AroundOut ∈ returns f -> gives f (Around (Foreign n))
| gives_keep f g e : Keep g ∈ returns f -> gives g e -> gives f e
| gives_around f g e : AroundOf g ∈ returns f -> gives g e -> gives f (Around e)
| gives_unless f s g e : AroundUnless s g ∈ returns f -> gives g e -> is_err e (Declared s) = false ->
    gives f (Around e).

(** ** The error of one call of ParseUpdate *)

(** The error value behind the code of a failed parser function (Parser.v).  EIndex comes only
    from parser.go:283 and :287. *)
Definition parser_error (x : err) : error :=
  match x with
  | EControlledStop => Declared SStop
  | EIndex => Around (Around (Declared SIndex))
  | _ => Around (Declared SOpencorpora)
  end.
(** pkg/opencorpora/loader.go:309-328 with the error it returns, [None] for nil.  [Foreign 0]:
    the file could not be opened; [Foreign 1]: the XML decoder failed. *)
Definition parse_update_error (e : env) (s : fs) : option error :=
  let saved ix := match (save_index e s ix).2 with Ok _ => None | _ => Some (Around (Declared SOpencorpora)) end in
  match (if e_open_xml e then fs_xml s else None) with
  | None => Some (Around (Foreign 0))
  | Some x =>
    let '(es, ends) := e_tokens e (f_bytes x) in
    match parse (e_conv e) (parser_new index_new 0) es with
    | (p, Done) => if ends then saved (p_ix p) else Some (Around (Foreign 1))
    | (p, Fail y) => if is_err (parser_error y) (Declared SStop) then saved (p_ix p) else Some (Around (parser_error y))
    | _ => Some (Around (Declared SOpencorpora))
    end
  end.
