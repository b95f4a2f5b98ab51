(** The repository's own unit tests, run on the model: every table of inputs and expected
    results in the *_test.go files, as an example.  They are no theorems; they check that
    the model computes what the authors expect of the code.  Left out: the tests of Swap and
    Less (the model sorts with a sorting function, Base.v), of nil readers and writers (no
    such values here), and those that need a network. *)
From Verif Require Import Base Storage Bin Utf8 Tags TagSets Variants Items Index Streams.
From stdpp Require Import list.
Open Scope N_scope.

(** hex.DecodeString. *)
Definition nibble (b : N) : N := if b <? 58 then b - 48 else if b <? 91 then b - 55 else b - 87.
Fixpoint hex_bytes (bs : list N) : list N :=
  match bs with a :: b :: rest => nibble a * 16 + nibble b :: hex_bytes rest | _ => [] end.
Definition hex (s : string) : list N := hex_bytes (bytes_of s).
(** Index a list of items one after the other. *)
Fixpoint index_all {A} (f : A -> list N -> res (A * N)) (x : A) (l : list (list N)) : res (A * list N) :=
  match l with
  | [] => Ok (x, [])
  | i :: rest => '(x1, id) ← f x i; '(x2, ids) ← index_all f x1 rest; Ok (x2, id :: ids)
  end.
Definition first {A B} (r : res (A * B)) : res A := '(a, _) ← r; Ok a.
Definition second {A B} (r : res (A * B)) : res B := '(_, b) ← r; Ok b.
Fixpoint add_all (ix : index) (ws : list string) : index :=
  match ws with [] => ix | w :: rest => add_all (add_string ix (bytes_of w)).1 rest end.
Definition fails {A} (r : res A) : bool := match r with Ok _ => false | _ => true end.

(** ** pkg/storage *)
(** id16_test.go:12-61, id32_test.go:12-59. *)
Example id16_tests : Forall (fun '(id, hi, lo) => combine8 hi lo = id /\ id16_upper id = hi /\ id16_lower id = lo)
  [(0, 0, 0); (0x1234, 0x12, 0x34); (0x5678, 0x56, 0x78); (0x9abc, 0x9a, 0xbc); (0xdeef, 0xde, 0xef)].
Proof. repeat constructor. Qed.
Example id32_tests : Forall (fun '(id, hi, lo) => combine16 hi lo = id /\ id32_upper id = hi /\ id32_lower id = lo)
  [(0xffffffff, 0xffff, 0xffff); (0x11112222, 0x1111, 0x2222); (0x33332222, 0x3333, 0x2222)].
Proof. repeat constructor. Qed.
(** set8_test.go:69-91, set16_test.go:69-91. *)
Example sort_tests : Forall (fun '(l, want) => go_sort l = want)
  [([], []); ([99], [99]); ([22; 11], [11; 22]); ([22; 33; 11], [11; 22; 33]); ([44; 22; 33; 11], [11; 22; 33; 44]);
   ([44; 22; 33; 55; 11], [11; 22; 33; 44; 55])].
Proof. repeat constructor. Qed.
(** set8_test.go:92-112, set16_test.go:92-112. *)
Example equal_tests : Forall (fun '(a, b, want) => equal_to a b = want /\ equal_to b a = want)
  [([], [], true); ([1], [1], true); ([1], [2], false); ([1; 3; 5; 7; 9], [1; 3; 5; 7; 9], true);
   ([1; 3; 5; 7; 9], [1; 3; 5; 7], false)].
Proof. repeat constructor. Qed.
(** set8_test.go:114-143, set16_test.go:114-143. *)
Definition roomy := mkSink [] 1000.
Example set8_write_tests : Forall (fun '(l, data, n) =>
  let w := set8_write_to l roomy in wr_err w = None /\ wr_count w = n /\ sk_got (wr_sink w) = hex data)
  [([], "00"%string, 1); ([1], "0101"%string, 2); ([11; 22], "020b16"%string, 3); ([11; 22; 33], "030b1621"%string, 4);
   ([11; 33; 55; 77; 99], "050b21374d63"%string, 6)].
Proof. repeat constructor. Qed.
Example set16_write_tests : Forall (fun '(l, data, n) =>
  let w := set16_write_to l roomy in wr_err w = None /\ wr_count w = n /\ sk_got (wr_sink w) = hex data)
  [([], "0000"%string, 2); ([1], "00010001"%string, 4); ([11; 22], "0002000b0016"%string, 6);
   ([11; 22; 33], "0003000b00160021"%string, 8); ([11; 33; 55; 77; 99], "0005000b00210037004d0063"%string, 12)].
Proof. repeat constructor. Qed.
(** set8_test.go:145-181, set16_test.go:145-178. *)
Definition read_ok (r : rd) (want : option (list N * N)) : Prop :=
  match want with
  | Some (l, n) => rd_err r = None /\ rd_count r = n /\ rd_set r = Some l
  | None => rd_err r <> None
  end.
Example set8_read_tests : Forall (fun '(data, want) => read_ok (set8_read_from (hex data)) want)
  [("00"%string, Some ([], 1)); ("01ff"%string, Some ([255], 2)); ("02fffd"%string, Some ([255; 253], 3));
   ("030b1621"%string, Some ([11; 22; 33], 4)); ("050b21374d63"%string, Some ([11; 33; 55; 77; 99], 6));
   ("050b21374d"%string, None); ("050b2137"%string, None); ("050b21"%string, None); ("050b"%string, None); ("10"%string, None)].
Proof. repeat constructor; discriminate. Qed.
Example set16_read_tests : Forall (fun '(data, want) => read_ok (set16_read_from (hex data)) want)
  [("0000"%string, Some ([], 2)); ("00010001"%string, Some ([1], 4)); ("0002000b0016"%string, Some ([11; 22], 6));
   ("0003000b00160021"%string, Some ([11; 22; 33], 8)); ("0005000b00210037004d0063"%string, Some ([11; 33; 55; 77; 99], 12));
   ("0005000b00210037004d"%string, None); ("0010"%string, None)].
Proof. repeat constructor; discriminate. Qed.
(** table8_test.go:11-108, table16_test.go:11-108. *)
Definition tables_find : list (list (list N) * list N * option N) :=
  [([], [1; 2; 3], None); ([[1; 2; 4]; [2; 3; 4]; [0; 2]], [1; 2; 3], None);
   ([[2; 3; 4]; [0; 2]; [1; 2; 3]], [1; 2; 3], Some 2); ([[1; 2; 3]], [1; 2; 3], Some 0)].
Definition tables_index : list (list (list N) * list N * N) :=
  [([], [1; 2; 3], 0); ([[1; 2; 4]; [2; 3; 4]; [0; 2]], [1; 2; 3], 3); ([[2; 3; 4]; [0; 2]; [1; 2; 3]], [1; 2; 3], 2);
   ([[2; 3; 4]; [1; 2; 3]; [0; 2]], [1; 2; 3], 1); ([[1; 2; 3]], [1; 2; 3], 0)].
Example table_find_tests :
  Forall (fun '(t, i, want) => table8_find t i = want /\ table16_find t i = want) tables_find.
Proof. repeat constructor. Qed.
Example table_index_tests : Forall (fun '(t, i, want) =>
  match table8_index t i with Ok (t', id) => id = want /\ table8_find t' i = Some want | _ => False end /\
  match table16_index t i with Ok (t', id) => id = want /\ table16_find t' i = Some want | _ => False end) tables_index.
Proof. repeat constructor. Qed.
(** collection8_test.go:11-104. *)
Definition coll : list (list (list N)) :=
  [[[0]; [5]; [11]]; [[0; 1]; [1; 2]; [2; 3]]; [[1; 2; 3]; [1; 3; 4]; [2; 7; 10]]; [[1; 2; 3; 4]; [1; 3; 4; 5]; [6; 7; 9; 11]]; []].
Example collection_find_tests : Forall (fun '(i, want) => collection8_find coll i = Ok want)
  [([1; 2; 3; 4; 5], None); ([1; 2; 5], None); ([0], Some 0); ([1; 2], Some 257); ([1; 3; 4], Some 513); ([1; 3; 4; 5], Some 769)].
Proof. repeat constructor. Qed.
Example collection_index_tests : Forall (fun '(i, want) => second (collection8_index [] i) = Ok want)
  [([0], 0); ([1; 2], 256); ([1; 2; 5], 512); ([1; 2; 3; 4], 768)].
Proof. repeat constructor. Qed.
Example collection_get_tests : Forall (fun '(id, want) => collection8_get coll id = want)
  [(4 * 256 + 1, None); (3, None); (0, Some [0]); (257, Some [1; 2]); (513, Some [1; 3; 4]); (769, Some [1; 3; 4; 5]); (2560, None)].
Proof. repeat constructor. Qed.

(** ** pkg/dag *)
(** name_test.go:10-63. *)
Example name_marshal_tests : Forall (fun '(s, want) => match name_marshal (bytes_of s) with Ok b => Some b | _ => None end = want)
  [("NOUN"%string, Some [78; 79; 85; 78]); (""%string, Some [32; 32; 32; 32]); ("ABC"%string, None); ("bytes"%string, None); ("байт"%string, None)].
Proof. repeat constructor. Qed.
Example name_unmarshal_tests : Forall (fun '(b, want) => match name_unmarshal b with Ok s => Some s | _ => None end = want)
  [([97; 97; 97; 97], Some (bytes_of "aaaa")); ([97; 97; 97], None); ([97; 97; 97; 98; 99], None); ([32; 32; 32; 32], Some empty_tag_name)].
Proof. repeat constructor. Qed.
(** tag_test.go:38-50, :78-125. *)
Example tag_tests :
  new_tag [] (bytes_of "POST") = mkTag (bytes_of "----") (bytes_of "POST") /\
  new_tag (bytes_of "POST") (bytes_of "NOUN") = mkTag (bytes_of "POST") (bytes_of "NOUN") /\
  tag_read (hex "2d2d2d2d504f5354") = Ok (new_tag [] (bytes_of "POST"), []) /\
  tag_read (hex "4e4f554e504f5354") = Ok (new_tag (bytes_of "NOUN") (bytes_of "POST"), []).
Proof. repeat constructor. Qed.
(** idx_test.go:20-66. *)
Definition tg (p n : string) := mkTag (bytes_of p) (bytes_of n).
Example tags_index_tests : Forall (fun '(ts, name, parent, want) => (tags_index (tags_new ts) (bytes_of name) (bytes_of parent)).2 = want)
  [([], "1111"%string, ""%string, 0); ([tg "" "1111"], "2222"%string, "----"%string, 1); ([tg "" "1111"], "2222"%string, "1111"%string, 1);
   ([tg "----" "1111"; tg "----" "2222"], "2222"%string, ""%string, 1); ([tg "----" "1111"; tg "1111" "2222"], "3333"%string, "1111"%string, 2)].
Proof. repeat constructor. Qed.
(** idx_test.go:68-129. *)
Example tags_read_tests : Forall (fun '(data, want) => match tags_read (hex data) with Ok (ts, _) => Some ts | _ => None end = want)
  [("00"%string, Some []); ("012020202020202020"%string, Some [tg "----" "----"]); ("0120202020504f5354"%string, Some [tg "----" "POST"]);
   ("0220202020504f5354504f53544e4f554e"%string, Some [tg "----" "POST"; tg "POST" "NOUN"]);
   ("0120202020504f5354FF"%string, Some [tg "----" "POST"]); (""%string, None); ("ff"%string, None); ("02504f535420202020"%string, None)].
Proof. repeat constructor. Qed.
(** the same lists written (testIndexStruct.wantData). *)
Example tags_write_tests : Forall (fun '(ts, data) => tags_write ts = wok (hex data))
  [([], "00"%string); ([tg "----" "----"], "012020202020202020"%string); ([tg "----" "POST"], "0120202020504f5354"%string);
   ([tg "----" "POST"; tg "POST" "NOUN"], "0220202020504f5354504f53544e4f554e"%string)].
Proof. repeat constructor. Qed.
(** idx_test.go:131-234. *)
Example tags_add_test :
  let '(t1, a) := tags_index (tags_new []) (bytes_of "POST") [] in
  let '(t2, b) := tags_index t1 (bytes_of "POST") [] in
  let '(_, c) := tags_index t2 (bytes_of "POS1") [] in (a, b, c) = (0, 0, 1).
Proof. reflexivity. Qed.
Example tags_get_tests :
  let ts := tags_new [tg "" "POST"; tg "POST" "NOUN"; tg "POST" "VERB"] in
  map (tags_get ts) [0; 1; 2; 3] = [ts !! 0%nat; ts !! 1%nat; ts !! 2%nat; None].
Proof. reflexivity. Qed.
Example tags_new_tests : Forall (fun ts => lenN (tags_new ts) = lenN ts /\ Forall (fun t => is_Some (tags_find (tags_new ts) (tag_name t))) ts)
  [[]; [tg "----" "POST"]; [tg "POST" "NOUN"; tg "POST" "VERB"]; [tg "POST" "NOUN"; tg "POST" "VERB"; tg "----" "POST"]].
Proof. repeat (constructor; [|]); repeat constructor; by eexists. Qed.
Example tags_find_tests : Forall (fun '(ts, name, want) => tags_find (tags_new ts) (bytes_of name) = want)
  [([], ""%string, None); ([tg "" "1111"], "2222"%string, None); ([tg "" "1111"; tg "2222" "1111"], "1111"%string, Some 0);
   ([tg "" "1111"; tg "1111" "2222"], "2222"%string, Some 1)].
Proof. repeat constructor. Qed.

(** ** internal/index *)
(** tagset_id_test.go:29-79. *)
Example tagset_id_tests :
  Forall (fun '(t, s, want) => combine16 t s = want) [(0, 0, 0); (0, 1, 1); (1, 1, 0x10001); (10, 10, 0xa000a)] /\
  Forall (fun '(id, want) => id32_lower id = want) [(0, 0); (0xa, 10); (0x1000a, 10)] /\
  Forall (fun '(id, want) => id32_upper id = want) [(0x1, 0); (0x10001, 1); (0xc0001, 12)].
Proof. repeat constructor. Qed.
(** tagset_def_test.go:9-26. *)
Example tagset_equal_tests : Forall (fun '(a, b, want) => equal_to a b = want)
  [([], [], true); ([10], [10], true); ([10; 12], [10; 12], true); ([12; 10], [10; 12], false)].
Proof. repeat constructor. Qed.
(** tagset_table_test.go:13-110. *)
Example tagset_table_index_test : second (index_all tagset_table_index [] [[0]; [1]; [2]; [3]]) = Ok [0; 1; 2; 3].
Proof. reflexivity. Qed.
Example tagset_table_get_tests : Forall (fun '(t, id, want) => tagset_table_get t id = want)
  [([[0]; [1]; [2]], 0, Some [0]); ([[0; 1]; [2; 3]], 1, Some [2; 3]); ([[0; 1]; [2; 3]], 2, None)].
Proof. repeat constructor. Qed.
Example tagset_table_find_tests : Forall (fun '(t, i, want) => tagset_table_find t i = want)
  [([[0]; [1]; [2]], [0], Some 0); ([[0; 1]; [2; 3]], [2; 3], Some 1); ([[0; 1]; [2; 3]], [1; 3], None)].
Proof. repeat constructor. Qed.
Example tagset_table_codec_tests : Forall (fun t => tagset_table_read (tagset_table_write t) = Ok (t, []))
  [[]; [[0]; [1]; [2]]; [[0; 1]; [2; 3]; [4; 5]; [6; 7]]; [[0; 1; 2]; [3; 4; 5]; [6; 7; 8]]].
Proof. repeat constructor. Qed.
(** tagset_index_test.go:15-52. *)
Example tagset_find_tests : Forall (fun '(x, i, want) => tagset_find x i = want)
  [([], [1], None); ([[[1]]], [1], Some 0); ([[[1]]; [[2; 3]]], [2; 3], Some 0x10000);
   ([[[1]]; [[2; 3]]; [[4; 5; 6]; [7; 8; 9]; [11; 12; 13]]], [11; 12; 13], Some 0x20002)].
Proof. repeat constructor. Qed.
(** tagset_index_test.go:54-152: the bytes written and read. *)
Definition tagset_hex : list (list (list N) * N * string) :=
  [([], 0, "00000000"%string); ([[1]], 1, "0000000100010101"%string); ([[2; 3]], 1, "0000000200000001020203"%string);
   ([[1]; [2; 3]], 2, "00000002000101010001020203"%string); ([[5; 6; 7; 8; 9]], 1, "0000000500000000000000000001050506070809"%string)].
Example tagset_read_tests : Forall (fun '(sets, size, data) =>
  match tagset_index_read (hex data) with
  | Ok (x, _) => tagset_index_size x = size /\
      Forall (fun s => match tagset_find x s with Some id => tagset_get x id = Some s | None => False end) sets
  | _ => False
  end) tagset_hex.
Proof. repeat constructor. Qed.
Example tagset_write_tests : Forall (fun '(sets, size, data) =>
  match index_all tagset_index_index [] sets with
  | Ok (x, _) => tagset_index_size x = size /\ tagset_index_write x = hex data
  | _ => False
  end) tagset_hex.
Proof. repeat constructor. Qed.
(** tagset_index_test.go:154-175. *)
Example tagset_size_tests : Forall (fun '(sets, want) =>
  match index_all tagset_index_index [] sets with Ok (x, _) => tagset_index_size x = want | _ => False end)
  [([], 0); ([[0]], 1); ([[0]; [1; 2]], 2); ([[0]; [1]; [2]], 3); ([[0]; [1; 2]; [3; 4; 5; 6]; [7; 8; 9; 10; 11; 12; 13]], 4)].
Proof. repeat constructor. Qed.
(** variant_def_test.go:60-150. *)
Example collection_equal_tests : Forall (fun '(a, b, want) => equal_to a b = want)
  [([], [], true); ([1; 3; 5; 7; 11; 13; 17; 23; 29], [1; 3; 5; 7; 11; 13; 17; 23; 29], true);
   ([1; 3; 5; 7; 11; 13; 17; 23; 29], [1; 3; 5; 7; 11; 13; 17; 23], false);
   ([1; 3; 5; 7; 11; 13; 17; 23; 29], [1; 3; 5; 7; 11; 13; 17; 29; 23], false)].
Proof. repeat constructor. Qed.
Example collection_has_tests : Forall (fun '(c, id, want) => collection_has c id = want)
  [([], 0, false); ([1; 3; 5; 7], 2, false); ([1; 3; 5; 7], 7, true)].
Proof. repeat constructor. Qed.
Example collection_add_tests : Forall (fun '(c, id, want) => collection_add c id = want)
  [([], 1, [1]); ([1; 3; 7], 1, [1; 3; 7]); ([11; 7; 5; 3; 2], 1, [1; 2; 3; 5; 7; 11])].
Proof. repeat constructor. Qed.
(** variant_table_test.go:11-30. *)
Example variants_table_tests : Forall (fun '(t, i, want) =>
  let '(t', id) := variants_table_index t i in id = want /\ variants_table_get t' id = Ok i)
  [([], [10], 0); ([], [10; 11], 0); ([[10]], [11], 1); ([[10]; [11]], [12], 2)].
Proof. repeat constructor. Qed.
(** variant_idx_test.go:14-35. *)
Example variants_index_tests : Forall (fun '(i, want) =>
  match variants_index_index [] i with Ok (x, id) => id = want /\ variants_get x id = Ok i | _ => False end)
  [([10], 0x10000); ([10; 11], 0x20000); ([0], 0x10000); ([], 0)].
Proof. repeat constructor. Qed.
(** variant_idx_test.go:37-62. *)
Example variants_get_tests : Forall (fun '(id, want) =>
  variants_get [[[10]; [11]; [12]]; [[20; 21]; [22; 23]]; [[30; 31; 32]; [33; 34; 35]; [36; 37; 38]]] id = Ok want)
  [(0, []); (0x10000, [10]); (0x20001, [22; 23]); (0x30002, [36; 37; 38])].
Proof. repeat constructor. Qed.
(** variant_idx_test.go:64-113. *)
Example variants_codec_tests : Forall (fun i =>
  match variants_index_index [] i with
  | Ok (x, id) => variants_find x i = Ok (Some id) /\
      match variants_read (variants_write x) with Ok (y, _) => variants_find y i = Ok (Some id) | _ => False end
  | _ => False
  end)
  [[11]; [11; 13]; [11; 13; 17]; [11; 13; 17; 19]; [11; 13; 17; 19; 23]; [11; 13; 17; 19; 23; 29]; [11; 13; 17; 19; 23; 29; 31]].
Proof. repeat constructor. Qed.
(** items_test.go:14-53: 25 items, each the child of the one before. *)
Fixpoint chain (s : items) (i : N) (n : nat) : Prop :=
  match n with
  | O => its_next s = i + 1
  | S m => its_next s = i + 1 /\
    match items_new_child s i 97%Z with
    | Ok (s', it) => it = mkItem i (i + 1) 97%Z 0 /\ items_get s' (i + 1) = Ok (Some it) /\ chain s' (i + 1) m
    | _ => False
    end
  end.
Example items_tests : chain items_new 0 25.
Proof. vm_compute. repeat split. Qed.
(** item_def_test.go:12-41. *)
Example item_string_tests : Forall (fun '(it, want) => item_string it = bytes_of want)
  [(mkItem 1 1 122%Z 0, "z1_1_0"%string); (mkItem 1 2 1073%Z 1, "б2_1_1"%string); (mkItem 2 3 181%Z 99, "µ3_2_99"%string)].
Proof. repeat constructor. Qed.
(** idx_test.go:12-24. *)
Example new_index_test :
  let '(ix1, r) := add_string index_new (bytes_of "example") in
  let '(ix2, _) := index_tag_id ix1 (bytes_of "TEST") (bytes_of "    ") in
  let '(ix3, r3) := node_add_tag_set ix2 7 [bytes_of "TEST"] in
  words_count index_new = 0 /\ nodes_count index_new = 0 /\ r = Ok 7 /\ nodes_count ix1 = 7 /\ node_word ix1 7 = Ok (bytes_of "example") /\
  words_count ix1 = 0 /\ r3 = Ok tt /\ words_count ix3 = 1.
Proof. vm_compute. repeat split. Qed.
(** idx_test.go:26-59. *)
Example fetch_tests : Forall (fun '(add, search, want_err) =>
  let ix := add_all index_new add in
  let '(ix', r) := fetch_runes ix (runes_of_string (bytes_of search)) in
  fails r = want_err /\ match r with Ok id => node_word ix' id = Ok (bytes_of search) | _ => True end)
  [([], ""%string, true); ([], "example"%string, true); (["example"%string], "example"%string, false);
   (["example"%string], "e"%string, false); (["example"%string], "exam"%string, false)].
Proof. repeat (apply Forall_cons; split; [vm_compute; split; done|]). constructor. Qed.
(** idx_test.go:61-142. *)
Example count_tests : Forall (fun '(words, want) => nodes_count (add_all index_new words) = want)
  [([], 0); (["a"], 1); (["a"; "ab"], 2); (["a"; "ab"; "ac"], 3); (["a"; "ab"; "ac"; "abc"], 4);
   (["t"], 1); (["te"], 2); (["tes"], 3); (["test"], 4); (["test"; "text"], 6); (["test"; "check"], 9);
   (["конь"], 4); (["конь"; "лес"], 7); (["конь"; "кот"], 5); (["table"], 5); (["more"; "less"], 8); (["table"; "tell"], 8); (["美丽"], 2)]%string.
Proof. repeat (apply Forall_cons; split; [vm_compute; reflexivity|]). constructor. Qed.
(** idx_test.go:144-162; the identifiers are those of the commented-out lines. *)
Example add_child_test :
  let ix := add_all index_new ["abcd"%string] in
  let '(ix1, _) := fetch_runes ix (runes_of_string (bytes_of "abc")) in
  let '(ix2, r) := add_to_node ix1 3 [102%Z] in
  let '(ix3, r3) := fetch_runes ix2 (runes_of_string (bytes_of "abcf")) in
  r = Ok 5 /\ r3 = Ok 5 /\ match get_item ix3 5 with Ok (Some it) => it_parent it = 3 | _ => False end.
Proof. vm_compute. repeat split. Qed.
(** idx_test.go:164-191, with the expected identifiers. *)
Example cross_tests : Forall (fun '(a, b, search, id, parent) =>
  let '(ix, r) := fetch_string (add_all index_new [a; b]) (bytes_of search) in
  r = Ok id /\ match get_item ix id with Ok (Some it) => it_parent it = parent | _ => False end)
  [("test", "text", "tex", 5, 2); ("write", "wrote", "wrot", 7, 6)]%string.
Proof. repeat (apply Forall_cons; split; [vm_compute; repeat split|]). constructor. Qed.
(** idx_test.go:193-209. *)
Example add_to_node_test :
  let '(i1, a) := add_to_node index_new 0 [97%Z] in let '(i2, b) := add_to_node i1 1 [98%Z] in
  let '(i3, c) := add_to_node i2 2 [99%Z] in let '(i4, z) := add_to_node i3 2 [122%Z] in
  (a, b, c, z) = (Ok 1, Ok 2, Ok 3, Ok 4) /\
  map (node_word i4) [1; 2; 3; 4] = [Ok (bytes_of "a"); Ok (bytes_of "ab"); Ok (bytes_of "abc"); Ok (bytes_of "abz")].
Proof. vm_compute. repeat split. Qed.
