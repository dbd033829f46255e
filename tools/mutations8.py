MUTATIONS = []
def m(id, file, d, old, new, claim, *breaks):
    MUTATIONS.append({'id': id, 'file': file, 'def': d, 'old': old, 'new': new, 'claim': claim, 'breaks': list(breaks)})
m('A801','Pass1','spec_scope_name','"inline-" +:+ show_Z (pos_line p) +:+ "-" +:+ show_Z (pos_col p)','"inline-" +:+ show_Z (id_pos i) +:+ "-" +:+ show_Z (pos_col p)','the scope of a group of names is named by the position in the FileSet, which differs from run to run','C80')
m('A802','Pass2','case_at','List.find (λ o, Z.eqb (o_pos o) p) (ti_case_objs ti)','List.find (λ o, Z.leb (o_pos o) p) (ti_case_objs ti)','identifiers after a type switch are taken for its variable','C80','C58','C81')
m('A803','Pass2','create_local','"local " +:+ show_nat (size (f_locals st))','"local " +:+ show_Z pos','local symbols are numbered by position','C80','C13')
m('A804','Lookup','symbols_for_file','filter (λ e, fs_file fs e.1 = Some file) order','filter (λ e, pos_filename (fs_position fs e.1) = file) order','symbols are put in the document of the file a //line directive names','C69','C20')
m('A805','Lookup','lookup_in_package','           | Some (pkg, _) =>\n               let','           | Some (pkg, t) => if negb (Nat.eqb (size t) 0) then (LookupError, c) else\n               let','objects of project packages that have no entry are not named','C81','C11','C23')
m('A806','Lookup','lookup_in_package','get_info_by_path g id (o_pos o)','get_info_by_path g path (o_pos o)','entries of test variants are not found','C81','C11')
m('A807','Lookup','set_pkg_symbol','(<[p_path p := sym]> (g_pkgsyms g))','(if (match p_info p with Some _ => true | None => false end) then <[p_path p := sym]> (g_pkgsyms g) else g_pkgsyms g)','dependencies have no package symbol','C81','C15')
m('A808','Pass2','is_deprecated','    match pget tbl pos with\n    | Some info => is_doc_deprecated (i_documentation info)','    match pget tbl (pos + 1)%Z with\n    | Some info => is_doc_deprecated (i_documentation info)','deprecation is read at the next position','C80','C18')
m('A809','Pass2','local_info','match case_at ti (o_pos o) with','match case_at ti (o_pos o + 1)%Z with','signature of switch variables','C61','C80')
m('A810','Symbols','compose','','','','')
MUTATIONS.pop()
m('A811','Index','to_items','','','','')
MUTATIONS.pop()
m('A812','Pass2','visit_def','match pget_symbol tbl (o_pos def) with\n                  | Some s => Ok (s, st)\n                  | None =>\n                      match get_symbol g pkg (o_pos def) with\n                      | Some s => Ok (s, st)\n                      | None => create_local st (o_pos def) def','match pget_symbol tbl (id_pos i) with\n                  | Some s => Ok (s, st)\n                  | None =>\n                      match get_symbol g pkg (o_pos def) with\n                      | Some s => Ok (s, st)\n                      | None => create_local st (o_pos def) def','definition looked up at the identifier (an equivalent edit where objects are at their identifiers)','C11')
m('A813','Pass2','visit_ref','match f_locals st !! o_pos ref with','match f_locals st !! id_pos i with','locals are looked up at the use','C58','C81','C80')
m('A814','Pass2','visit_ref','| Skip | LookupError => Ok st\'','| Skip | LookupError => Ok st','what the lookup cached is forgotten','C24')
