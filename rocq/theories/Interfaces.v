(** * Interfaces with methods that declare error codes (interfaces_collect.go). *)
From Coq Require Import Ascii String.
From stdpp Require Import base list gmap.
From Verif Require Import GoString ErrorCode Scc Engine DocParser CodeSet Constant GoAst Taint Extract Analyse Phase Claims.

(** interfaces_collect.go 39-48.  The parameter of funcCodes is always nil here (132-140). *)
Record imethod := IMeth { im_ident : option ident; im_codes : codeset }.
Inductive embedded := EmbIdent (id : nid) (name : gostring) | EmbOther (id : nid).
Record iface := Iface { if_ident : ident; if_methods : gmap gostring imethod; if_embeds : list embedded }.

Section collect.
Context (pk : package) (fa : facts).
Notation info := (pk_info pk).

(** interfaces_verify.go 465-472, importErrorInterfaceFact. *)
Definition importErrorInterfaceFact (t : option gotype) : option (gmap gostring codeset) :=
  match t with
  | None => None
  | Some t => match getNamedType t with
              | Some n => fa_iface fa !! n
              | None => None
              end
  end.

(** interfaces_collect.go 121-154, checkIfInterfaceMethodDeclaresErrors: the text of the error, or the method. *)
Definition checkIfInterfaceMethodDeclaresErrors (iface_id : nid) (name : ident) (doc : option gostring) (ft : functype)
  : phase (gostring + option imethod) :=
  let* b := checkFunctionReturnsError pk ft in
  if negb b then pret (inr None)                                                     (* 122-124 *)
  else match findErrorDocs doc with
       | inr e => pret (inl (str "interface method " ++ quoted (i_name name) ++ str " has odd docstring: " ++ doc_message e))  (* 127-130 *)
       | inl r =>
         if decide (dr_param r <> []) then
           pret (inl (str "declaration of error constructors in interfaces is currently not supported"))   (* 133-135 *)
         else if bool_decide (dr_codes r = ∅) && negb (dr_none r) then               (* 142; 137-140: no parameter *)
           if bool_decide (i_name name = str "Cause") &&
              (match ti_type info iface_id with Some t => ti_implements_cause info t | None => false end)
           then pret (inr None)                                                      (* 144-147 *)
           else pret (inl (str "interface method " ++ quoted (i_name name) ++ str " does not declare any error codes"))   (* 150 *)
         else pret (inr (Some (IMeth (Some name) (dr_codes r))))                     (* 152 *)
       end.

(** interfaces_collect.go 102-116: one element of an interface type. *)
Definition collect_element (iface_id : nid) (i : iface) (e : ielem) : phase iface :=
  match e with
  | IMethod id name doc ft =>
    let* r := checkIfInterfaceMethodDeclaresErrors iface_id name doc ft in
    match r with
    | inl msg => let* _ := ptell id msg in pret i
    | inr None => pret i
    | inr (Some m) => pret (Iface (if_ident i) (<[ i_name name := m ]> (if_methods i)) (if_embeds i))
    end
  | IEmbed id name => pret (Iface (if_ident i) (if_methods i) (if_embeds i ++ [EmbIdent id name]))
  | IEmbedSel id => pret (Iface (if_ident i) (if_methods i) (if_embeds i ++ [EmbOther id]))
  | IOtherElem => pret i
  end.
(** interfaces_collect.go 88-119, checkIfErrorReturningInterface. *)
Definition checkIfErrorReturningInterface (spec : option typespec) : phase (option iface) :=
  match spec with
  | Some (TypeSpec name (XInterface id (e :: elems))) =>
    let* i := pfold (collect_element id) (Iface name ∅ []) (e :: elems) in pret (Some i)
  | _ => pret None
  end.

(** errorInterfaces and embeddingInterfaces. *)
Definition imaps : Type := gmap gostring iface * gmap gostring iface.

(** interfaces_collect.go 58-77: the two maps. *)
Definition collect_spec (m : imaps) (spec : option typespec) : phase imaps :=
  let* r := checkIfErrorReturningInterface spec in
  match r with
  | None => pret m
  | Some i =>
    if decide (if_embeds i <> []) then pret (m.1, <[ i_name (if_ident i) := i ]> m.2)
    else if decide (if_methods i <> ∅) then pret (<[ i_name (if_ident i) := i ]> m.1, m.2)
    else pret m
  end.
Definition collect_interfaces : phase imaps :=
  pfold (fun m g => pfold collect_spec m (gd_specs g)) (∅, ∅) (pk_gendecls pk).

(** interfaces_collect.go 237-242, checkEmbeddedInterfaceErrorMethodCodes. *)
Definition checkEmbeddedInterfaceErrorMethodCodes (old new : codeset) (method : gostring) (pos : nid) : phase unit :=
  let '(ok, msg) := checkIfErrorCodesMatch (some_orders old new) in
  if ok then pret tt
  else ptell pos (str "embedded interface is not compatible: method " ++ quoted method
                  ++ str " has mismatches in declared error codes: " ++ msg).

(** interfaces_collect.go 212-222, addEmbeddedInterfaceErrorMethods, and 224-234,
    addEmbeddedInterfaceErrorMethodsForFact: [add] are the codes of the methods, [order] the iteration order. *)
Definition addEmbeddedInterfaceErrorMethods (i : iface) (add : gmap gostring codeset) (order : list gostring) (pos : nid)
  : phase iface :=
  pfold (fun i m =>
    match add !! m with
    | None => pret i (* not reached *)
    | Some new =>
      match if_methods i !! m with
      | None => pret (Iface (if_ident i) (<[ m := IMeth None new ]> (if_methods i)) (if_embeds i))
      | Some old => let* _ := checkEmbeddedInterfaceErrorMethodCodes (im_codes old) new m pos in pret i
      end
    end) i order.

(** The iteration order over the methods of an embedded interface, at the given position. *)
Context (order : nid -> gset gostring -> list gostring).

Definition codes_of_methods (i : iface) : gmap gostring codeset := im_codes <$> if_methods i.

(** interfaces_collect.go 179-201: one embedded interface; [dfs] is embeddingInterfaceDFS. *)
Definition embed_one (dfs : iface -> imaps -> phase imaps) (s : iface * imaps) (e : embedded) : phase (iface * imaps) :=
  let '(i, m) := s in
  match e with
  | EmbOther id =>                                                                   (* 180-188 *)
    match importErrorInterfaceFact (ti_type info id) with
    | Some methods => let* i' := addEmbeddedInterfaceErrorMethods i methods (order id (dom methods)) id in pret (i', m)
    | None => pret s
    end
  | EmbIdent id name =>
    let* m' := match m.2 !! name with Some e => dfs e m | None => pret m end in       (* 192-195 *)
    match m'.1 !! name with
    | Some j => let* i' := addEmbeddedInterfaceErrorMethods i (codes_of_methods j) (order id (dom (codes_of_methods j))) id in
                pret (i', m')                                                        (* 197-200 *)
    | None => pret (i, m')
    end
  end.
(** interfaces_collect.go 175-206, embeddingInterfaceDFS; [fuel] bounds the depth of the recursion. *)
Fixpoint embeddingInterfaceDFS (fuel : nat) (i : iface) (m : imaps) : phase imaps :=
  match fuel with
  | O => OutOfFuel
  | S n =>
    let m1 := (m.1, delete (i_name (if_ident i)) m.2) in                             (* 177 *)
    let* s := pfold (embed_one (embeddingInterfaceDFS n)) (i, m1) (if_embeds i) in
    let '(i', m2) := s in
    pret (if decide (if_methods i' <> ∅) then (<[ i_name (if_ident i') := i' ]> m2.1, m2.2) else m2)   (* 203-205 *)
  end.

(** interfaces_collect.go 161-173, findErrorReturningEmbeddingInterfaces; [names] is the iteration order over
    embeddingInterfaces. *)
Definition findErrorReturningEmbeddingInterfaces (names : gset gostring -> list gostring) (m : imaps) : phase imaps :=
  let fuel := S (size m.2) in
  pfold (fun m name => match m.2 !! name with
                       | Some i => embeddingInterfaceDFS fuel i m
                       | None => pret m
                       end) m (names (dom m.2)).

(** interfaces_collect.go 50-86, findErrorReturningInterfaces. *)
Definition findErrorReturningInterfaces (names : gset gostring -> list gostring) : phase (gmap gostring iface) :=
  let* m := collect_interfaces in
  let* m' := findErrorReturningEmbeddingInterfaces names m in
  pret m'.1.
End collect.

(** interfaces_collect.go 246-276, exportInterfaceFacts and exportErrorInterfaceFact; [ifaces] is the result of the above in
    some order, the methods of an interface are visited in the order [methods]. *)
Definition add_iface_fact (o : tobj) (m : gmap gostring codeset) (fa : facts) : facts :=
  Facts (fa_codes fa) (fa_ctor fa) (fa_type fa) (<[ o := m ]> (fa_iface fa)).
Definition export_interface (pk : package) (methods : gset gostring -> list gostring) (fa : facts) (i : iface) : facts :=
  let fa1 := match ti_defs (pk_info pk) (i_id (if_ident i)) with
             | Some o => add_iface_fact o (codes_of_methods i) fa
             | None => fa
             end in
  foldl (fun fa m =>
    match if_methods i !! m with
    | Some (IMeth (Some name) codes) =>
      match ti_defs (pk_info pk) (i_id name) with
      | Some o => add_codes_fact o codes fa
      | None => fa
      end
    | _ => fa
    end) fa1 (methods (dom (if_methods i))).
Definition exportInterfaceFacts (pk : package) (methods : gset gostring -> list gostring) (ifaces : list iface) (fa : facts) : facts :=
  foldl (export_interface pk methods) fa ifaces.
