(** * DhlFile: the file plugin of the historical logger
    (src/modules/histlog/plugins/file/dhl_file.c).

    Modelled as parameters: which names fopen(3) can open for appending; the text that "%f" gives
    for a time; values of REAL, LREAL and TIME as text (Text.v).  stdio keeps what is written
    until fflush or fclose (it may hand it on earlier); writing to the disk succeeds.  Left out:
    the creation of the directory (init, its effect is whether files can be opened), the rotation
    tag and its event (the callback is the operation [DRotate], at any time), the log. *)
From Verif Require Import Base Const Types Lib Text.

(** dhl_file.c:28-33: log_directory, the file open (None: NULL), what is not yet on the disk,
    rotate_flag, and the files of the disk *)
Record dhl := mkDhl { d_dir : name; d_open : option name; d_buf : list Z; d_rotate : bool;
                      d_disk : name -> option (list Z) }.

(** dhl_file.c:42-48 [_open_file]: snprintf into 256 bytes; "a" creates the file or keeps its contents *)
Definition file_name (dir now : name) : name := firstn 255 (dir ++ str "/dax_" ++ now ++ str ".log").
Definition upd (d : name -> option (list Z)) (p : name) (v : list Z) : name -> option (list Z) :=
  fun q => if name_eqb q p then Some v else d q.
Definition bytes_of (o : option (list Z)) : list Z := match o with Some b => b | None => [] end.
Definition open_file (can : name -> bool) (s : dhl) (now : name) : dhl :=
  let p := file_name (d_dir s) now in
  if can p then mkDhl (d_dir s) (Some p) [] (d_rotate s) (upd (d_disk s) p (bytes_of (d_disk s p)))
  else mkDhl (d_dir s) None [] (d_rotate s) (d_disk s).

(** dhl_file.c:50-90 [init]; [dir]: the Lua global directory *)
Definition dhl_init (can : name -> bool) (dir : option name) (disk : name -> option (list Z)) (now : name) : dhl :=
  open_file can (mkDhl (match dir with Some d => d | None => str "logs" end) None [] false disk) now.

(** what stdio holds goes to the disk *)
Definition sync (s : dhl) : dhl :=
  match d_open s with
  | None => s
  | Some p => mkDhl (d_dir s) (Some p) [] (d_rotate s) (upd (d_disk s) p (bytes_of (d_disk s p) ++ d_buf s))
  end.

(** dhl_file.c:114-125 [write_data]; the value: its type and bytes.  A type that
    dax_val_to_string does not know leaves val_string as it was *)
Definition value_text (T : tenv) (v : option (Z * list Z)) : run name :=
  match v with
  | None => Done (str "NULL")
  | Some (t, b) =>
    x <-- val_to_string T 256 t b 0 ;;
    match cstr x with Some n => Done n | None => Undef UUninit end
  end.
Definition write_data (T : tenv) (s : dhl) (tag : name) (v : option (Z * list Z)) (ts : name) : run dhl :=
  x <-- value_text T v ;;
  match d_open s with
  | None => Undef UNull
  | Some p => Done (mkDhl (d_dir s) (Some p) (d_buf s ++ tag ++ [44] ++ ts ++ [44] ++ x ++ [10]) (d_rotate s) (d_disk s))
  end.

(** dhl_file.c:139-158 [flush_data]; fclose(NULL) is undefined, fflush(NULL) is not *)
Definition flush_data (can : name -> bool) (s : dhl) (now : name) : run dhl :=
  if d_rotate s then
    match d_open s with
    | None => Undef UNull
    | Some _ =>
      let s := open_file can (sync s) now in
      Done (sync (mkDhl (d_dir s) (d_open s) (d_buf s) false (d_disk s)))
    end
  else Done (sync s).

(** The calls of the plugin: a record, the event of the rotation tag (dhl_file.c:37-40), a flush *)
Inductive dop := DWrite (tag : name) (v : option (Z * list Z)) (ts : name) | DRotate | DFlush (now : name).
Definition dhl_step (T : tenv) (can : name -> bool) (s : dhl) (o : dop) : run dhl :=
  match o with
  | DWrite tag v ts => write_data T s tag v ts
  | DRotate => Done (mkDhl (d_dir s) (d_open s) (d_buf s) true (d_disk s))
  | DFlush now => flush_data can s now
  end.
Fixpoint dhl_run (T : tenv) (can : name -> bool) (s : dhl) (l : list dop) : run dhl :=
  match l with [] => Done s | o :: r => s <-- dhl_step T can s o ;; dhl_run T can s r end.
