MUTATIONS = []
def m(id, file, d, old, new, claim, *breaks):
    MUTATIONS.append({'id': id, 'file': file, 'def': d, 'old': old, 'new': new, 'claim': claim, 'breaks': list(breaks)})
m('A901','Pass1','fv','''    | NFuncDecl _ _ _ recv nm t _ =>
        let sc1 := match receiver_type_name recv with
                   | Some r => sc ++ [Desc r Type_]
                   | None => sc end in
        Ev (sc1 ++ [Desc (id_name nm) Method]) (Some n) nm (id_pos nm)
        :: fv (sc1 ++ [Desc "func" Meta; Desc (id_name nm) Meta]) t
    | NFuncType _ _ _ rs => fv sc rs
    | NBlockStmt _ _ => []''','''    | NFuncDecl _ _ _ recv nm t b =>
        let sc1 := match receiver_type_name recv with
                   | Some r => sc ++ [Desc r Type_]
                   | None => sc end in
        Ev (sc1 ++ [Desc (id_name nm) Method]) (Some n) nm (id_pos nm)
        :: fv (sc1 ++ [Desc "func" Meta; Desc (id_name nm) Meta]) t ++
           match b with Some x => fv (sc1 ++ [Desc "func" Meta; Desc (id_name nm) Meta]) x | None => [] end
    | NFuncType _ _ _ rs => fv sc rs
    | NBlockStmt _ l => fvs l''','the function visitor also walks the bodies: interfaces written there get global symbols','C82')
m('A902','Pass1','decl_events','| NFuncDecl _ _ _ _ _ _ _ => fv (new_scope path) d','| NFuncDecl _ _ _ _ _ _ _ => fv (new_scope path) d ++ (vv WALK d (VState None (new_scope path))).2','the var visitor also walks functions: local variables get global symbols','C82','C13')
m('A903','Pass1','fv','''    | NFuncDecl _ _ _ recv nm t _ =>
        let sc1 := match receiver_type_name recv with
                   | Some r => sc ++ [Desc r Type_]
                   | None => sc end in
        Ev (sc1 ++ [Desc (id_name nm) Method]) (Some n) nm (id_pos nm)''','''    | NFuncDecl _ _ pe recv nm t _ =>
        let sc1 := match receiver_type_name recv with
                   | Some r => sc ++ [Desc r Type_]
                   | None => sc end in
        Ev (sc1 ++ [Desc (id_name nm) Method]) (Some n) nm pe''','functions are recorded at their end','C82','C11')
m('A904','Document','hover_node','| NFuncDecl doc _ _ _ _ _ _ => trim_space doc','| NFuncDecl doc _ _ _ _ _ b => match b with Some (NBlockStmt _ []) => "" | _ => trim_space doc end','functions with an empty body are not documented','C82')
m('A905','Pass1','spec_scope_name','| [i] => id_name i','| [i] => id_name i +:+ "-" +:+ show_Z (pos_line (fs_position fs (id_pos i)))','the line of a var is in the symbols of the members of its type','C82')
m('A906','Pass2','visit_def','''                      match get_symbol g pkg (o_pos def) with
                      | Some s => Ok (s, st)
                      | None => create_local st (o_pos def) def
                      end''','''                      match get_symbol g pkg (o_pos def) with
                      | Some s => Ok (s, st)
                      | None => create_local (FState (f_locals st) (f_occs st) None (f_caches st)) (o_pos def) def
                      end''','a local definition ends the enclosing function','C56')
m('A907','Index','index_file','let tbl := match get_package g p with Some t => t | None => ∅ end in','let tbl := match get_package g p with Some t => if Nat.ltb 0 n then ∅ else t | None => ∅ end in','only the first document sees the table of its package','C82','C20','C81')
m('A908','Index','imports_of','| Some e => h !! e.2','| Some e => match h !! e.2 with Some q => match p_info q with None => Some q | Some _ => None end | None => None end','imports of project packages are not resolved','C15','C81')
m('A909','Pass2','step','| VFunc nm p e => Ok (FState (f_locals st) (f_occs st) (Some (nm, p, e)) (f_caches st))','| VFunc nm p e => Ok (FState ∅ (f_occs st) (Some (nm, p, e)) (f_caches st))','locals are renumbered in each function','C13','C57')
m('A910','Document','documentation','| d0 :: _ => if String.eqb d0 block then docs else docs ++ [block]','| d0 :: _ => if String.eqb d0 block then docs else block :: docs','the documentation of a block comes first','C16','C60')
m('A911','Document','hover_spec','if String.eqb doc "" then hover_node parent else doc','if String.eqb doc "" then doc else hover_node parent','specs show the documentation of their block','C16','C60')
m('A912','Pass1','apply_event','Ok (pset t (e_pos e) (new_symbol_info env ti sym (e_parent e) (e_ident e)))','Ok (match pget t (e_pos e) with Some _ => t | None => pset t (e_pos e) (new_symbol_info env ti sym (e_parent e) (e_ident e)) end)','the first visitor wins','C11')
m('A913','Document','new_symbol_info','''Info sym (documentation parent i) [] (kind_for_object env def) (id_name i)''','''Info sym (documentation parent i) [] (kind_for_object env def) (if is_doc_deprecated (documentation parent i) then "" else id_name i)''','deprecated symbols have no display name','C83')
m('A914','Impls','extract_def','''             | Some info => classify g''','''             | Some info => if is_doc_deprecated (i_documentation info) then Ok st else classify g''','deprecated types implement nothing','C83','C22')
m('A915','Lookup','symbols_for_file','filter (λ e, fs_file fs e.1 = Some file) order','filter (λ e, fs_file fs e.1 = Some file ∧ Is_true (negb (is_doc_deprecated (i_documentation e.2)))) order','deprecated symbols are not described','C83','C10')
m('A916','Index','package_info','(Some ("package " +:+ p_name p)) ""','(if is_doc_deprecated (find_package_docs fs p) then None else Some ("package " +:+ p_name p)) ""','deprecated packages have no signature','C83')
m('A917','Pass2','visit_ref','''                                            (is_doc_deprecated (i_documentation info))))''','''                                            (existsb (λ d, has_prefix d "Deprecated:") (i_documentation info))))''','a deprecation notice counts only at the start of a text','C18','C83')
