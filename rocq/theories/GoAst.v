(** * The part of go/ast and go/types the analyzer looks at.

    The results of the Go parser and type checker are the input of the model.  Pointers ( *ast.Object,
    types.Object, ast.Node) are numbers; two pointers are equal iff the numbers are. *)
From Coq Require Import Ascii String.
From stdpp Require Import base list gmap.
From Verif Require Import GoString ErrorCode Scc Constant.

Definition nid := N.   (** ast.Node, as a key of the TypesInfo maps and a position to report at *)
Definition oid := N.   (** *ast.Object *)
Definition tobj := N.  (** types.Object *)

(** ** Syntax *)

(** ast.Ident. *)
Record ident := Ident { i_id : nid; i_name : gostring; i_obj : option oid }.

(** ast.Field of a parameter, result or receiver list: its names and the type expression. *)
Record field := Field { f_id : nid; f_names : list ident; f_type : nid }.

(** ast.FuncType: Params is never nil, Results may be. *)
Record functype := FuncType {
  ft_id : nid;
  ft_params : list field;
  ft_results : option (list field);
  ft_results_pos : N
}.

(** What a node is.  The children are listed in the order in which ast.Walk visits them.  Omitted
    are children which are type expressions and names being declared: they contain no statements, calls or
    literals the analyzer reacts to (except in array length expressions, which are constants). *)
Inductive kind :=
| KIdent (name : gostring) (obj : option oid)
| KParen                                     (* [x] *)
| KSelector                                  (* [x; sel] *)
| KCall                                      (* fun :: args *)
| KUnary (is_and : bool)                     (* [x] *)
| KComposite                                 (* elements *)
| KBasicLit
| KKeyValue                                  (* [key; value] *)
| KTypeAssert (typ : option nid)             (* [x]; no type: `x.(type)` *)
| KIndex                                     (* [x; index] *)
| KFuncLit (f : fid)                         (* [body] *)
| KAssign (nlhs : nat)                       (* lhs ++ rhs *)
| KReturn                                    (* results *)
| KValueSpec (names : list ident) (typ : option nid)   (* values *)
| KRange (has_key has_value : bool)          (* key? ++ value? ++ [x; body] *)
| KSend                                      (* [chan; value] *)
| KTypeSwitch (has_init : bool)              (* init? ++ [assign; body] *)
| KCaseClause (ncases : nat)                 (* cases ++ body *)
| KOther (name : gostring).                  (* any other node; the Go type name, as printed by %T *)

Inductive node := Node (id : nid) (k : kind) (kids : list node).

Definition node_id (n : node) : nid := let 'Node i _ _ := n in i.
Definition node_kind (n : node) : kind := let 'Node _ k _ := n in k.
Definition node_kids (n : node) : list node := let 'Node _ _ l := n in l.

(** ast.Inspect(n, f) with an f that always returns true calls f on these nodes, in this order. *)
Fixpoint walk (n : node) : list node :=
  let 'Node _ _ kids := n in n :: flat_map walk kids.

(** astutil.Unparen. *)
Fixpoint unparen (n : node) : node :=
  match n with
  | Node _ KParen [x] => unparen x
  | _ => n
  end.

(** n.( *ast.Ident), n.( *ast.SelectorExpr) ... *)
Definition as_ident (n : node) : option ident :=
  match n with Node i (KIdent name obj) _ => Some (Ident i name obj) | _ => None end.
Definition as_selector (n : node) : option (node * ident) :=
  match n with
  | Node _ KSelector [x; sel] => match as_ident sel with Some s => Some (x, s) | None => None end
  | _ => None
  end.
Definition as_call (n : node) : option (node * list node) :=
  match n with Node _ KCall (f :: args) => Some (f, args) | _ => None end.
Definition as_assign (n : node) : option (list node * list node) :=
  match n with Node _ (KAssign k) kids => Some (take k kids, drop k kids) | _ => None end.
Definition as_funclit (n : node) : option fid :=
  match n with Node _ (KFuncLit f) _ => Some f | _ => None end.
Definition as_keyvalue (n : node) : option (node * node) :=
  match n with Node _ KKeyValue [k; v] => Some (k, v) | _ => None end.

(** ast.Object: Kind == ast.Var, Pos() and Decl. *)
Inductive objdecl :=
| DFunc (f : fid)                                      (* *ast.FuncDecl *)
| DType                                                (* *ast.TypeSpec *)
| DValueSpec (names : list ident) (values : list node) (* *ast.ValueSpec *)
| DOther.                                              (* *ast.AssignStmt, *ast.Field, ... *)
Record object := Object { ob_is_var : bool; ob_pos : N; ob_decl : objdecl }.

(** ast.FuncDecl or ast.FuncLit (funcDefinition, analyse.go 91-95). *)
Record declinfo := DeclInfo {
  dc_name : ident;
  dc_recv : option (list field);      (* Recv *)
  dc_doc : option gostring            (* Doc.Text(), if Doc != nil *)
}.
Record func := Func {
  fn_pos : nid;                       (* Pos(), where diagnostics about the function go *)
  fn_decl : option declinfo;          (* None: a function literal *)
  fn_type : functype;
  fn_body : option node;              (* None: a declaration without body *)
  fn_body_pos : N;
  fn_body_end : N
}.

(** ast.GenDecl, as far as types are declared in it. *)
Inductive ielem :=                                       (* ast.Field of an interface type *)
| IMethod (id : nid) (name : ident) (doc : option gostring) (ft : functype)   (* Names[0], Doc.Text(), Type *)
| IEmbed (id : nid) (name : gostring)                    (* *ast.Ident *)
| IEmbedSel (id : nid)                                   (* *ast.SelectorExpr *)
| IOtherElem.
Inductive typeexpr :=
| XStruct (fields : list (list ident))                   (* *ast.StructType: the names of the fields *)
| XInterface (id : nid) (elems : list ielem)             (* *ast.InterfaceType *)
| XOther.
Record typespec := TypeSpec { tsp_name : ident; tsp_type : typeexpr }.
Record gendecl := GenDecl { gd_id : nid; gd_specs : list (option typespec) }.   (* None: not an *ast.TypeSpec *)

(** A declaration of a file: a function, or another declaration with the expressions in it. *)
Inductive topdecl := TopFunc (f : fid) | TopNode (n : node).

(** ** Types *)

(** types.Type.  A named type is identified by its object; types.Identical is equality. *)
Inductive gotype :=
| TNamed (n : tobj)
| TPointer (t : gotype)
| TBasic (name : gostring)
| TUntypedNil
| TTuple (ts : list gotype)
| TSlice (t : gotype)
| TArray (len : N) (t : gotype)
| TMap (k v : gotype)
| TChan (dir : N) (t : gotype)
| TStruct (fields : list (gostring * gotype))
| TSignature (params results : list gotype) (variadic : bool)
| TInterface (n : N)
| TOther (n : N).

Global Instance gotype_eq_dec : EqDecision gotype.
Proof.
  unfold EqDecision. fix go 1. intros a b.
  destruct a, b; try (right; congruence); try (left; congruence).
  - destruct (decide (n = n0)); [left|right]; congruence.
  - destruct (go a b); [left|right]; congruence.
  - destruct (decide (name = name0)); [left|right]; congruence.
  - destruct (@list_eq_dec _ go ts ts0); [left|right]; congruence.
  - destruct (go a b); [left|right]; congruence.
  - destruct (decide (len = len0)), (go a b); [left|right..]; congruence.
  - destruct (go a1 b1), (go a2 b2); [left|right..]; congruence.
  - destruct (decide (dir = dir0)), (go a b); [left|right..]; congruence.
  - destruct (@list_eq_dec _ (@prod_eq_dec gostring _ gotype go) fields fields0); [left|right]; congruence.
  - destruct (@list_eq_dec _ go params params0), (@list_eq_dec _ go results results0), (decide (variadic = variadic0)); [left|right..]; congruence.
  - destruct (decide (n = n0)); [left|right]; congruence.
  - destruct (decide (n = n0)); [left|right]; congruence.
Defined.

(** ** Facts *)

(** tag_error_types.go 19-29.  ErrorType.Codes is a slice; it is only ever written as CodeSet.Slice() of a set (in
    whatever order the map iteration has) and read by SliceToSet, so the model keeps the set
    (SliceToSet(Slice(s)) is s for every order: C11). *)
Record errortype := ErrorType { et_codes : codeset; et_field : option (gostring * nat) }.

(** The facts of all four kinds known at some point of the analysis (imported and exported). *)
Record facts := Facts {
  fa_codes : gmap tobj codeset;                      (* ErrorCodes *)
  fa_ctor : gmap tobj nat;                           (* ErrorConstructor *)
  fa_type : gmap tobj errortype;                     (* ErrorType *)
  fa_iface : gmap tobj (gmap gostring codeset)       (* ErrorInterface *)
}.

(** ** Type information *)
Record typeinfo := TypeInfo {
  ti_type : nid -> option gotype;          (* TypesInfo.TypeOf / TypesInfo.Types[e].Type *)
  ti_value : nid -> option constval;       (* TypesInfo.Types[e].Value *)
  ti_uses : nid -> option tobj;            (* TypesInfo.Uses *)
  ti_defs : nid -> option tobj;            (* TypesInfo.Defs *)
  ti_selection : nid -> option (tobj * gotype);  (* TypesInfo.Selections: Obj(), Recv() *)
  ti_is_typename : tobj -> bool;           (* obj.( *types.TypeName) *)
  ti_pkgname : nid -> option gostring;     (* TypesInfo.ObjectOf(ident).( *types.PkgName): Imported().Name() *)
  ti_objname : tobj -> gostring;           (* Object.Name() *)
  ti_objtype : tobj -> gotype;             (* Object.Type() *)
  ti_underlying : tobj -> gotype;          (* Named.Underlying() *)
  ti_methods : gotype -> gostring -> option tobj;  (* MethodSet(t).Lookup(pkg, name).Obj() *)
  ti_implements_error : gotype -> bool;    (* types.Implements(t, tError) *)
  ti_implements_ree : gotype -> bool;      (* types.Implements(t, tReeError) *)
  ti_implements_cause : gotype -> bool;    (* types.Implements(t, tReeErrorWithCause) *)
  ti_implements : gotype -> gotype -> bool; (* types.Implements(t, interface) *)
  ti_named_methods : tobj -> list gostring; (* names of the methods of a named type, in order *)
  ti_is_print : N -> bool;                 (* strconv.IsPrint outside ASCII *)
  ti_is_upper : N -> bool;                 (* unicode.IsUpper outside ASCII *)
  ti_compound : nid -> bool                (* AssignStmt.Tok is neither = nor := (but += ...); the analyzer does not look at it *)
}.

(** analyse.go 221-233, getNamedType. *)
Fixpoint getNamedType (t : gotype) : option tobj :=
  match t with
  | TNamed n => Some n
  | TPointer e => getNamedType e
  | _ => None
  end.

(** ** A package *)
Record package := Package {
  pk_funcs : gmap fid func;                (* declarations and literals *)
  pk_decls : list fid;                     (* the declarations, in source order *)
  pk_gendecls : list gendecl;              (* the outermost ast.GenDecl's, also those in functions, in source order *)
  pk_top : list topdecl;                   (* the declarations of all files *)
  pk_objs : gmap oid object;
  pk_comments : nid -> list gostring;      (* c.comments[stmt]: texts of the comment groups of a node *)
  pk_info : typeinfo
}.

(** ** Diagnostics *)
Record diag := Diag { d_at : nid; d_msg : gostring }.

(** fmt's %q of an identifier. *)
Definition quoted (s : gostring) : gostring := str """" ++ s ++ str """".

(** The name fmt's %T prints for a node. *)
Definition type_name (n : node) : gostring :=
  match node_kind n with
  | KIdent _ _ => str "*ast.Ident" | KParen => str "*ast.ParenExpr" | KSelector => str "*ast.SelectorExpr"
  | KCall => str "*ast.CallExpr" | KUnary _ => str "*ast.UnaryExpr" | KComposite => str "*ast.CompositeLit"
  | KBasicLit => str "*ast.BasicLit" | KKeyValue => str "*ast.KeyValueExpr"
  | KTypeAssert _ => str "*ast.TypeAssertExpr" | KIndex => str "*ast.IndexExpr" | KFuncLit _ => str "*ast.FuncLit"
  | KAssign _ => str "*ast.AssignStmt" | KReturn => str "*ast.ReturnStmt" | KValueSpec _ _ => str "*ast.ValueSpec"
  | KRange _ _ => str "*ast.RangeStmt" | KSend => str "*ast.SendStmt" | KTypeSwitch _ => str "*ast.TypeSwitchStmt"
  | KCaseClause _ => str "*ast.CaseClause" | KOther s => s
  end.
