MUTATIONS = []
def m(id, file, d, old, new, claim, *breaks):
    MUTATIONS.append({'id': id, 'file': file, 'def': d, 'old': old, 'new': new, 'claim': claim, 'breaks': list(breaks)})
# --- redone after tightening, or with the deeper search of mutate.py
m('O21b','Loader','builtin_pkg','(bare_module "github.com/golang/go/src/builtin" (io_go_version o))','(bare_module "github.com/golang/go/src/builtin" (io_module_version o))','builtin package has the version of the module','C28','C56')
m('O23b','Loader','normalize_package','(trim_prefix (p_path p) "std/")','(p_path p)','std/ kept in package paths','C28')
m('O24b','Loader','normalize_package','(bare_module stdlib_module_path (io_go_version o))','(bare_module stdlib_module_path (io_module_version o))','stdlib symbols carry the version of the indexed module','C28','C56')
m('N05b','Lookup','g_add','(<[p_path p := (p, t)]> (g_symbols g)) (g_pkgsyms g).\n','(<[p_name p := (p, t)]> (g_symbols g)) (g_pkgsyms g).\n','tables keyed by package name','C10','C34','C54')
m('M22b','Document','new_symbol_info','(kind_for_object env def) (id_name i)','(kind_for_object env def) sym','display name is the symbol','C61','C10')
m('D22b','Cli','packages_lines','["Current packages"] ++ current ++ ["Dependency packages"] ++ deps','["Current packages"] ++ deps ++ ["Dependency packages"] ++ current','lists swapped','C71')
m('D23b','Cli','missing_lines','["Missing documents:"] ++ missing','missing','no heading','C71')
# --- C69: ranges point at the text
m('Z01','Source','starts','then (off + 1) :: starts (off + 1) r','then off :: starts (off + 1) r','lines start at their newline','C69')
m('Z02','Source','line_table','0 :: List.filter','List.filter','first line missing from the line table','C69')
m('Z03','Source','locate','if Z.leb s x then','if Z.ltb s x then','first column of a line belongs to the line before','C69')
m('Z04','Source','unpack','let column := off - start + 1 in','let column := off - start in','columns from 0','C69')
m('Z05','Source','unpack','(dir_line alt + d)','(dir_line alt)','every line after a directive is the directive\'s','C69')
m('Z06','Source','covers','Z.leb p (s_base s + Z.of_nat (slen (s_text s)))','Z.ltb p (s_base s + Z.of_nat (slen (s_text s)))','end of file belongs to no file','C69')
m('Z07','Pass1','scip_range','let ec := int32 (pos_col e - 1) in','let ec := int32 (pos_col e) in','ranges end one past','C69','C16')
m('Z08','Pass1','scip_range','[sl; add32 sc adj; el; sub32 ec adj]','[sl; add32 sc adj; sub32 ec adj]','multi-line ranges collapsed to one line','C69','C16','C14')
m('Z09','Symbols','range_from_name','[line; add32 column adj; add32 (add32 column n) adj]','[line; add32 column adj; add32 column n]','adjusted ranges end early','C69','C14','C15')
m('Z10','Symbols','range_from_name','let line := int32 (pos_line p - 1) in','let line := int32 (pos_line p) in','lines from 1','C69','C14')
# --- C70
m('Z20','Pass1','package_events','List.concat (map (file_events (p_path pkg)) (p_syntax pkg))','List.concat (map (file_events (p_path pkg)) (p_syntax pkg ++ p_syntax pkg))','every file traversed twice (no effect: the table is idempotent)','(none: Set is idempotent)')
m('Z21','Pass2','visit_file','(FState ∅ [pkg_occ] None k)','(FState ∅ [pkg_occ; pkg_occ] None k)','package clause has two occurrences','C70','C20')
# --- C71
m('Z30','Index','get_packages','(sorted_keys proj_order, sorted_keys all_order)','(proj_order, sorted_keys all_order)','project packages in map order','C71','C57')
m('Z31','Index','list_missing','Some _ => acc | None => acc ++ [n] end','Some _ => acc ++ [n] | None => acc end','files that do have a document are reported','C71')
m('Z32','Index','list_missing','(∅, new_global) (pk order1)','(∅, new_global) (pk [])','packages never visited','C71')
m('Z33','Commands','print_lines','map (λ x, x +:+ String "010" "") l','map (λ x, x) l','no newlines','C71')
m('Z34','Commands','packages_cmd','(get_packages po ao).1 (get_packages po ao).2','(get_packages po ao).2 (get_packages po ao).1','lists swapped','C71')
m('Z35','Commands','missing_cmd','(missing_lines l), Exit 0 None)','(missing_lines l), match l with [] => Exit 0 None | _ => Exit 1 None end)','missing files make the command fail','C71')
m('Z36','Commands','packages_cmd','packages_cmd S f (su_noise S O, Exit 1 (Some e))\n| pc_done','packages_cmd S f (su_noise S O, Exit 0 None)\n| pc_done','failed load exits with 0','C71')
# --- C72
m('Z40','Commands','write_at_start','b +:+ str_drop (slen b) c','b','(same when the profile is not the output)','C72')
m('Z41','Commands','write_profile','| Some (FReg c) => <[q := FReg (write_at_start c b)]> t','| Some (FReg c) => t','profile not written','C72')
m('Z42','Commands','profiled','(0 < profile)%Z → os_create err t "mem.pprof" = inl e','(0 < profile)%Z → os_create err t "profile" = inl e','other name','C72')
m('Z43','Commands','profiled','| pr_off r : (profile <= 0)%Z','| pr_off r : (profile <= 10)%Z','small rates ignored','C72')
# --- loader, program
m('Z50','Loader','load_packages','load_loop (with_default_version o) w','load_loop o w','default version not filled in','C25','C27','C28')
m('Z51','Loader','load_loop','load_loop o w h1 t1 (<[p_path g := q]> pj) ps h2 t2 pj2','load_loop o w h1 t1 pj ps h2 t2 pj2','nothing is a project package','C23','C26','C30')
