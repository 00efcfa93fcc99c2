(* Model of converters/writers/yaml.py and converters/yaml.py.  The file is a text (code points); its codec is not modelled. *)
From Coq Require Import String.
From Verif Require Import Base Obj Stream_Model Num Geom_Model Page_Model Interp_Model Markup_Model Convert_Model.
Open Scope Z_scope.
Import ListNotations.

(* ---------- writers/yaml.py ---------- *)
(* what a program does with a YAMLMakerObject (write, object, array) or a YAMLMakerArray (write, object, whose keys are not used);
   YRaise: an exception.  place_object and place_array are sequences of these (74-83, 113-116). *)
Inductive ycall :=
| YWrite (key value : list Z)
| YObject (key : list Z) (inside : list ycall)
| YArray (key : list Z) (inside : list ycall)
| YRaise.
(* 34-38 _write: deep_space * levels_deep *)
Definition spaces (level : nat) : list Z := repeat 32 (2 * level).
(* 15-26: __enter__ adds one to the level the object was made with, which is the level of its parent (-1 at the top); level: the one
   inside the with block.  inarr: parent_is_array.
   keys: for an object its set of keys (42), for an array a list as long as its childrencount (90). *)
Fixpoint ytext (array inarr : bool) (level : nat) (keys : list (list Z)) (c : ycall) : list Z * bool * list (list Z) :=
  let body (array inarr : bool) (level : nat) :=
    (fix go (keys : list (list Z)) (l : list ycall) : list Z * bool :=
       match l with
       | [] => ([], false)
       | c :: r => match ytext array inarr level keys c with
                   | (t, true, _) => (t, true)
                   | (t, false, keys') => let (t', b) := go keys' r in (t ++ t', b)
                   end
       end) in
  let keys' key := if existsb (list_eqb key) keys then keys else key :: keys in
  if array then
    (* 92-109 *)
    let lead := match keys with [] => spaces level | _ => 10 :: spaces level end in
    match c with
    | YWrite _ v => (lead ++ bs "- " ++ v, false, [] :: keys)
    | YObject _ l => let (t, b) := body false true (S level) [] l in (lead ++ bs "- " ++ t, b, [] :: keys)
    | YArray _ _ | YRaise => ([], true, keys)
    end
  else
    match c with
    (* 45-53 *)
    | YWrite k v =>
        if existsb (list_eqb k) keys then ([], false, keys)
        else match keys with
             | [] => ((if inarr then [] else spaces level) ++ k ++ bs ": " ++ v, false, [k])
             | _ => (10 :: spaces level ++ k ++ bs ": " ++ v, false, k :: keys)
             end
    (* 55-63 *)
    | YObject k l =>
        let lead := match keys' k with [_] => [] | _ => 10 :: spaces level end in
        let (t, b) := body false false (S level) [] l in (lead ++ k ++ bs ":" ++ 10 :: t, b, keys' k)
    (* 65-73 *)
    | YArray k l =>
        let lead := match keys' k with [_] => spaces level | _ => 10 :: spaces level end in
        let (t, b) := body true false (S level) [] l in (lead ++ k ++ bs ":" ++ 10 :: t, b, keys' k)
    | YRaise => ([], true, keys)
    end.
(* what comes from the calls on one object or array *)
Fixpoint ybody (array inarr : bool) (level : nat) (keys : list (list Z)) (l : list ycall) : list Z * bool :=
  match l with
  | [] => ([], false)
  | c :: r => match ytext array inarr level keys c with
              | (t, true, _) => (t, true)
              | (t, false, keys') => let (t', b) := ybody array inarr level keys' r in (t ++ t', b)
              end
  end.
(* 6-10: the text of the file, and whether an exception comes out *)
Definition yaml_file (calls : list ycall) : list Z * bool := ybody false false 0 [] calls.

(* ---------- converters/yaml.py ---------- *)
Section converter.
  Context (num_text : num -> list Z) (val_text : obj -> list Z) (image_name : obj -> list Z).     (* as in Convert_Model *)
  Context (descriptor : tstate -> list (list Z * list Z)).
  Context (odd_repr : list Z -> list Z).    (* repr() of a string with a quote, a backslash or a character that is not printable *)
  (* repr() of a string, of a list of strings, of the list of points *)
  Definition py_repr (x : list Z) : list Z :=
    if forallb (fun c => (32 <=? c) && (c <=? 126) && negb (c =? 39) && negb (c =? 92)) x then bs "'" ++ x ++ bs "'" else odd_repr x.
  Definition repr_list (l : list (list Z)) : list Z := bs "[" ++ join (bs ", ") l ++ bs "]".
  Definition repr_point (p : point) : list Z := bs "{'x': " ++ num_text (fst p) ++ bs ", 'y': " ++ num_text (snd p) ++ bs "}".

  Definition y_box (b : bbox) : list ycall := map (fun a => YWrite (fst a) (snd a)) (box_attrs num_text b).
  Definition y_none : list ycall := map (fun a => YWrite (fst a) (snd a)) none_attrs.
  (* 12-19, and e.g. 98-102 *)
  Definition y_color (key : list Z) (c : color) : list ycall :=
    match c_space c with
    | None => []
    | Some cs => [YObject key [YWrite (bs "type") (enc (Str (cs_text cs)) true);
                               YWrite (bs "value") (repr_list (map (fun v => py_repr (enc (Str (val_text v)) true)) (c_vals c)))]]
    end.
  (* 92-112 place_char_block *)
  Definition y_char_block (cb : charblock) : list ycall :=
    YWrite (bs "size") (num_text (cb_size cb)) :: y_box (cb_box cb) ++ y_color (bs "color") (cb_color cb) ++
      map (fun kv => YWrite (fst kv) (snd kv)) (descriptor_items descriptor (cb_text cb)) ++
      [YWrite (bs "text") (flat_map fst (cb_chars cb))].
  (* 114-145 place_curve *)
  Definition y_seg (s : seg) : ycall :=
    YObject [] [YWrite (bs "type") (seg_method s); YWrite (bs "points") (repr_list (map repr_point (seg_points s)))].
  Definition y_curve (k : ckind) (paths : list seg) (box : bbox) (stroke fill : color) : list ycall :=
    match k with
    | CRect => [YWrite (bs "type") (bs "rect")]
    | CLine | CVert | CHoriz => [YWrite (bs "type") (bs "line")]
    | CCurve => [YWrite (bs "type") (bs "curve"); YArray (bs "paths") (map y_seg paths)]
    end ++ y_box box ++ y_color (bs "fill") fill ++ y_color (bs "stroke") stroke.
  (* 56-90 render and place_text_block: what is put in the object opened for the item *)
  Fixpoint y_item (i : item) : list ycall :=
    match i with
    | INone => []
    | ICurve k _ paths box stroke fill _ => y_curve k paths box stroke fill
    | IXObj _ box children =>
        YWrite (bs "type") (bs "xobject") :: y_box box ++
        [YArray (bs "children") ((fix go (l : list item) : list ycall := match l with [] => [] | i :: r => YObject [] (y_item i) :: go r end) children)]
    | IImage strm box => YWrite (bs "type") (bs "img") :: YWrite (bs "src") (enc (Str (image_name strm)) false) :: y_box box
    | IText b => YWrite (bs "type") (bs "text-block") :: (match tb_box b with Some x => y_box x | None => y_none end) ++
                 [YArray (bs "char_blocks") (map (fun cb => YObject [] (y_char_block cb)) (tb_blocks b))]
    end.
  Definition yraises (e : option exn) : list ycall := match e with Some _ => [YRaise] | None => [] end.
  (* 47-54 render_page *)
  Definition y_page (p : opage) : ycall :=
    YObject [] [YWrite (bs "id") (py_str_int (pg_num p)); YWrite (bs "width") (num_text (pg_width p)); YWrite (bs "height") (num_text (pg_height p));
                YArray (bs "children") (map (fun i => YObject [] (y_item i)) (fst (pg_items p)) ++ yraises (snd (pg_items p)))].
  (* 41-45 *)
  Definition convert_to_yaml (d : odoc) : list Z * bool := yaml_file [YArray (bs "pages") (map y_page (fst d) ++ yraises (snd d))].
End converter.

(* tests/test_yml_writer.py *)
Example yaml_run : yaml_file [YWrite (bs "name") (bs "bob"); YWrite (bs "age") (bs "20");
    YObject (bs "wife") [YWrite (bs "name") (bs "kory"); YWrite (bs "age") (bs "21")];
    YArray (bs "children") [YObject [] [YWrite (bs "name") (bs "Mike"); YArray (bs "toys") [YWrite [] (bs "lion"); YWrite [] (bs "bear")]]];
    YObject (bs "computer") [YWrite (bs "type") (bs "awesome")]] = (bs "name: bob
age: 20
wife:
  name: kory
  age: 21
children:
  - name: Mike
    toys:
      - lion
      - bear
computer:
  type: awesome", false).
Proof. reflexivity. Qed.
