(** FilterPyinotify (fail2ban/server/filterpyinotify.py:65-295): how the logs of a jail are followed with the help of inotify, together with a
    model of what the file system and inotify do, against which it is run.

    The filter runs in its own thread: what it does is cut into small steps, between which the file system may change at any time.

    Simplifications: a path is the list of its components, so [dirname] drops the last one and [startswith(path + pathsep)] says that one
    path is below the other; times are in milliseconds; the content of a file is the number of its lines, and reading it reads them all (how
    FileContainer reads a file is modelled in LogFile_Model); looking at all pending paths in _checkPending is one step (each of them is
    looked at once, with no effect on the others); _addLogPath and _delLogPath, which other threads call, happen between two callbacks;
    names ending in '-unknown-path' are replaced by the name itself (filterpyinotify.py:105-110); nothing is said of exceptions, of the
    logging and of the waiting in [run]. *)
From Verif Require Import Base.
Local Open Scope string_scope.
Local Open Scope list_scope.
Local Open Scope Z_scope.

Definition path := list string.
(** os.path.dirname *)
Definition dirname (p : path) : path := removelast p.
(** [p.startswith(d + pathsep)]; no path starts with the two slashes that this gives for the root *)
Definition under (d p : path) : bool :=
  match d with [] => false | _ => Nat.ltb (length d) (length p) && eqb (firstn (length d) p) d end.

(** ** The file system (no part of /repo): which file (inode) is at a path, which directory is, how many lines a file has *)
Record fsys := mkFS { files : dict path Z; dirs : dict path Z; sizes : dict Z Z; fresh : Z }.
Definition isfile (f : fsys) (p : path) : bool := dmem p (files f).
Definition isdir (f : fsys) (p : path) : bool := dmem p (dirs f).
Definition num (i : Z) (d : dict Z Z) : Z := match dget i d with Some n => n | None => 0 end.

(** ** Inotify (no part of /repo): a watch is set on the file or directory that is at a path at that time, and stays with it when it is moved;
    it ends when its file or directory is removed. Events are queued in the order they happen. *)
Record watch := mkW { w_wd : Z; w_ino : Z; w_path : path; w_dir : bool }.
Inductive event :=
| EModify (p : path)     (* IN_MODIFY: a watched file was written *)
| ECreate (p : path)     (* IN_CREATE or IN_MOVED_TO: a file came into a watched directory *)
| ECreateDir (p : path)  (* the same with IN_ISDIR *)
| EIgnored (p : path)    (* IN_IGNORED: the watch has ended *)
| EGone (p : path).      (* IN_MOVE_SELF or IN_DELETE_SELF: a watched directory was moved or removed *)
Record kern := mkK { watches : list watch; next_wd : Z; queue : list event }.

(** ** The filter *)
(** What the filter's thread is about to do next: the calls of filterpyinotify.py still to come in the current callback or check *)
Inductive micro :=
| RefreshFile (p : path) (chk : bool)  (* _refreshWatcher(p); then what follows line 118 (chk) or _process_file (not chk) *)
| AddFile (p : path) (chk : bool)      (* the second half of it: _addFileWatcher(p) *)
| RefreshDir (d : path)                (* _refreshWatcher(d, isDir=True); then lines 187-196 *)
| AddDir (d : path)                    (* the second half of it: _addDirWatcher(d) *)
| CheckFile (p : path)                 (* lines 118-128 with isWF *)
| ReadFile (p : path)                  (* _process_file(p) *)
| Found (p : path) (isDir : option bool) (* lines 182-199 for one found path *)
| ScanDir (d : path)                   (* lines 187-196 *)
| Scan (p : path).                     (* lines 190-196 for one log *)

(** [logs]: the paths of FileFilter.__logs; [wfiles], [wdirs]: __watchFiles, __watchDirs; [pend]: __pending; [chk_time], [min_time]:
    __pendingChkTime, __pendingMinTime; [seen]: how many lines of a file have been read *)
Record filt := mkN { logs : list path; wfiles : dict path Z; wdirs : dict path Z; pend : dict path (Z * option bool);
                     chk_time : Z; min_time : Z; seen : dict Z Z; idle : bool }.
Record state := mkS { F : fsys; K : kern; N : filt; todo : list micro }.
(** filterpyinotify.py:72-82 __init__, with a file system that has only the root *)
Definition init : state :=
  mkS (mkFS [] [([], 0)] [] 1) (mkK [] 1 []) (mkN [] [] [] [] 0 60000 [] false) [].

(** *** Inotify's calls *)
Definition push (es : list event) (k : kern) : kern := mkK (watches k) (next_wd k) (queue k ++ es).
(** add_watch of pyinotify, with quiet=True: the watch of what is at the path, which is the one already there if it is watched already; -1 if
    there is nothing *)
Definition add_watch (p : path) (ino : option Z) (isd : bool) (k : kern) : kern * Z :=
  match ino with
  | None => (k, -1)
  | Some i =>
      match List.find (fun w => w_ino w =? i) (watches k) with
      | Some w => (mkK (map (fun v => if w_ino v =? i then mkW (w_wd v) i p isd else v) (watches k)) (next_wd k) (queue k), w_wd w)
      | None => (mkK (watches k ++ [mkW (next_wd k) i p isd]) (next_wd k + 1) (queue k), next_wd k)
      end
  end.
(** rm_watch of pyinotify with _delWatch (filterpyinotify.py:220-230): a watch that is gone is no error *)
Definition rm_watch (wd : Z) (k : kern) : kern :=
  mkK (filter (fun w => negb (w_wd w =? wd)) (watches k)) (next_wd k)
      (queue k ++ map (fun w => EIgnored (w_path w)) (filter (fun w => w_wd w =? wd) (watches k))).

(** *** The filter's methods *)
Definition set_wfiles (v : dict path Z) (n : filt) : filt :=
  mkN (logs n) v (wdirs n) (pend n) (chk_time n) (min_time n) (seen n) (idle n).
Definition set_wdirs (v : dict path Z) (n : filt) : filt :=
  mkN (logs n) (wfiles n) v (pend n) (chk_time n) (min_time n) (seen n) (idle n).
Definition set_pend (v : dict path (Z * option bool)) (n : filt) : filt :=
  mkN (logs n) (wfiles n) (wdirs n) v (chk_time n) (min_time n) (seen n) (idle n).
Definition set_logs (v : list path) (n : filt) : filt :=
  mkN v (wfiles n) (wdirs n) (pend n) (chk_time n) (min_time n) (seen n) (idle n).
Definition set_times (chk min : Z) (n : filt) : filt :=
  mkN (logs n) (wfiles n) (wdirs n) (pend n) chk min (seen n) (idle n).

(** filterpyinotify.py:139-146 _addPending; 141: DEFAULT_SLEEP_INTERVAL (utils.py:60) *)
Definition add_pending (p : path) (isDir : option bool) (n : filt) : filt :=
  if dmem p (pend n) then n
  else set_times (chk_time n) 0 (set_pend (dset p (200, isDir) (pend n)) n).
(** filterpyinotify.py:148-151 _delPending *)
Definition del_pending (p : path) (n : filt) : filt := set_pend (ddel p (pend n)) n.

(** filterpyinotify.py:243-250 _addDirWatcher *)
Definition add_dir_watcher (d : path) (f : fsys) (kn : kern * filt) : kern * filt :=
  let (k, n) := kn in
  if dmem d (wdirs n) then (k, n)
  else let (k1, wd) := add_watch d (dget d (dirs f)) true k in (k1, set_wdirs (dset d wd (wdirs n)) n).
(** filterpyinotify.py:212-218 _addFileWatcher *)
Definition add_file_watcher (p : path) (f : fsys) (kn : kern * filt) : kern * filt :=
  let (k, n) := add_dir_watcher (dirname p) f kn in
  let (k1, wd) := add_watch p (dget p (files f)) false k in (k1, set_wfiles (dset p wd (wfiles n)) n).
(** filterpyinotify.py:232-241 _delFileWatcher *)
Definition del_file_watcher (p : path) (kn : kern * filt) : kern * filt :=
  let (k, n) := kn in
  match dget p (wfiles n) with
  | Some wd => (rm_watch wd k, set_wfiles (ddel p (wfiles n)) n)
  | None => (k, n)
  end.
(** filterpyinotify.py:252-261 _delDirWatcher *)
Definition del_dir_watcher (d : path) (kn : kern * filt) : kern * filt :=
  let (k, n) := kn in
  match dget d (wdirs n) with
  | Some wd => (rm_watch wd k, set_wdirs (ddel d (wdirs n)) n)
  | None => (k, n)
  end.

(** filterpyinotify.py:130-137 _process_file, with getFailures (filter.py:1111-1136): a log that is not there (any more) is not read *)
Definition process_file (p : path) (f : fsys) (n : filt) : filt :=
  if idle n then n
  else if negb (inb p (logs n)) then n
  else match dget p (files f) with
       | Some i => mkN (logs n) (wfiles n) (wdirs n) (pend n) (chk_time n) (min_time n) (dset i (num i (sizes f)) (seen n)) (idle n)
       | None => n
       end.

(** filterpyinotify.py:84-128 callback: what it does at once, and what is left to do *)
Definition callback (e : event) (f : fsys) (n : filt) : filt * list micro :=
  let p := match e with EModify p | ECreate p | ECreateDir p | EIgnored p | EGone p => p end in
  let isWD := dmem p (wdirs n) in
  let isWF := negb isWD && dmem p (wfiles n) in
  match e with
  | ECreateDir _ => (n, [])
  | ECreate _ => if isWF then (n, [RefreshFile p true]) else (n, [])
  | EModify _ => (n, if isWF then [CheckFile p] else [])
  | EIgnored _ | EGone _ =>
      let assumeNoDir := match e with EGone _ => true | _ => false end in
      let n1 :=
        if isWD && (assumeNoDir || negb (isdir f p)) then add_pending p (Some true) n
        else if isWF then n
        else fold_left (fun m d => if under p d && (assumeNoDir || negb (isdir f d)) then add_pending d (Some true) m else m)
                       (dkeys (wdirs n)) n in
      (n1, if isWF then [CheckFile p] else [])
  end.

(** filterpyinotify.py:164-178: one pending path looked at in _checkPending: what becomes of it, and the time to wait *)
Definition look (now chk : Z) (f : fsys) (retard : Z) (isDir : option bool) (p : path) : Z * bool :=
  if now - chk <? retard then (retard, false)
  else if (match isDir with Some true => isdir f p | _ => isfile f p end) then (retard, true)
  else ((if retard <? 60000 then 2 * retard else retard), false).
(** filterpyinotify.py:156-180 _checkPending up to the paths found; [now], [later]: the two readings of the clock *)
Definition check_pending (now later : Z) (f : fsys) (n : filt) : filt * list micro :=
  match pend n with
  | [] => (n, [])
  | _ =>
      if now <? chk_time n + min_time n then (n, [])
      else
        let seen_as (x : path * (Z * option bool)) := look now (chk_time n) f (fst (snd x)) (snd (snd x)) (fst x) in
        let waits := map (fun x => fst (seen_as x)) (filter (fun x => negb (snd (seen_as x))) (pend n)) in
        let pend' := map (fun x => (fst x, (fst (seen_as x), snd (snd x)))) (pend n) in
        let found := filter (fun x => snd (seen_as x)) (pend n) in
        (set_times later (fold_left Z.min waits 60000) (set_pend pend' n), map (fun x => Found (fst x) (snd (snd x))) found)
  end.

(** One step of what is left to do *)
Definition micro_step (m : micro) (s : state) : state :=
  let r := tl (todo s) in
  match m with
  (* filterpyinotify.py:201-207 _refreshWatcher *)
  | RefreshFile p c => let (k, n) := del_file_watcher p (K s, N s) in mkS (F s) k n (AddFile p c :: r)
  | AddFile p c => let (k, n) := add_file_watcher p (F s) (K s, N s) in mkS (F s) k n ((if c then CheckFile p else ReadFile p) :: r)
  (* filterpyinotify.py:208-210 *)
  | RefreshDir d => let (k, n) := del_dir_watcher d (K s, N s) in mkS (F s) k n (AddDir d :: r)
  | AddDir d => let (k, n) := add_dir_watcher d (F s) (K s, N s) in mkS (F s) k n (ScanDir d :: r)
  (* filterpyinotify.py:118-128 *)
  | CheckFile p => if isfile (F s) p then mkS (F s) (K s) (N s) (ReadFile p :: r)
                   else mkS (F s) (K s) (add_pending p (Some false) (N s)) r
  | ReadFile p => mkS (F s) (K s) (process_file p (F s) (N s)) r
  (* filterpyinotify.py:182-199 *)
  | Found p b =>
      mkS (F s) (K s) (del_pending p (N s))
          (match b with
           | None => [ReadFile p]
           | Some false => [RefreshFile p false]
           | Some true => [RefreshDir p]
           end ++ r)
  (* filterpyinotify.py:187-196 *)
  | ScanDir d => mkS (F s) (K s) (N s) (map Scan (filter (under d) (dkeys (wfiles (N s)))) ++ r)
  | Scan p => if isfile (F s) p then mkS (F s) (K s) (N s) (RefreshFile p false :: r)
              else mkS (F s) (K s) (add_pending p (Some false) (N s)) r
  end.

(** filter.py:1015-1032 addLogPath (FileContainer opens the file, so it must be there) with filterpyinotify.py:267-273 _addLogPath *)
Definition add_log (p : path) (s : state) : state :=
  if inb p (logs (N s)) || negb (isfile (F s) p) then s
  else
    let (k, n) := add_file_watcher p (F s) (K s, set_logs (logs (N s) ++ [p]) (N s)) in
    mkS (F s) k (add_pending p None (set_times (chk_time n) 0 n)) (todo s).
(** filter.py:1044-1051 delLogPath with filterpyinotify.py:280-294 _delLogPath *)
Definition del_log (p : path) (s : state) : state :=
  if inb p (logs (N s)) then
    let (k, n) := del_file_watcher p (K s, del_pending p (set_logs (filter (fun q => negb (eqb q p)) (logs (N s))) (N s))) in
    if existsb (under (dirname p)) (dkeys (wfiles n)) then mkS (F s) k n (todo s)
    else let (k1, n1) := del_dir_watcher (dirname p) (k, del_pending (dirname p) n) in mkS (F s) k1 n1 (todo s)
  else s.

(** ** What may happen *)
Inductive op :=
(* in the file system *)
| Write (p : path)               (* a line is appended to the file at a path *)
| WriteMoved (i : Z)             (* a line is appended to a file that may have been moved *)
| Create (p : path)              (* a new file *)
| MoveIn (p : path) (n : Z)      (* a file with n lines is moved to a path, from elsewhere *)
| Rename (q p : path)            (* the file at q is moved to p *)
| Remove (p : path)
| MoveAway (p : path)            (* the file is moved elsewhere *)
| MkDir (d : path)
| RmDir (d : path)               (* an empty directory is removed *)
| MoveDir (d : path)             (* a directory is moved elsewhere, with all that is in it *)
| Stray (e : event)              (* an event of another origin, say of a file that was moved *)
(* in the filter *)
| Callback                       (* the next event is taken from the queue *)
| Step                           (* the thread goes on with what it is doing *)
| Check (now later : Z)          (* _checkPending *)
| AddLog (p : path)
| DelLog (p : path)
| SetIdle (b : bool).

(** The watches of a file or directory *)
Definition on (i : Z) (isd : bool) (k : kern) : list watch :=
  filter (fun w => (w_ino w =? i) && Bool.eqb (w_dir w) isd) (watches k).
Definition basename (p : path) : string := last p "".
(** A file or directory came to the path *)
Definition came (f : fsys) (p : path) (ev : path -> event) (k : kern) : kern :=
  match dget (dirname p) (dirs f) with
  | Some i => push (map (fun w => ev (w_path w ++ [basename p])) (on i true k)) k
  | None => k
  end.
(** A file or directory is removed: its watches end *)
Definition drop (i : Z) (isd : bool) (k : kern) : kern :=
  mkK (filter (fun w => negb (w_ino w =? i)) (watches k)) (next_wd k)
      (queue k ++ flat_map (fun w => (if isd then [EGone (w_path w)] else []) ++ [EIgnored (w_path w)]) (on i isd k)).
Definition drop_file (f : fsys) (p : path) (k : kern) : kern :=
  match dget p (files f) with Some i => drop i false k | None => k end.
Definition append (i : Z) (f : fsys) : fsys := mkFS (files f) (dirs f) (dset i (num i (sizes f) + 1) (sizes f)) (fresh f).
Definition new_file (p : path) (n : Z) (f : fsys) : fsys :=
  mkFS (dset p (fresh f) (files f)) (dirs f) (dset (fresh f) n (sizes f)) (fresh f + 1).
Definition set_files (v : dict path Z) (f : fsys) : fsys := mkFS v (dirs f) (sizes f) (fresh f).
(** There is room for a file: its directory is there, and no directory has its name *)
Definition room (f : fsys) (p : path) : bool := match p with [] => false | _ => isdir f (dirname p) && negb (isdir f p) end.

Definition set_fk (f : fsys) (k : kern) (s : state) : state := mkS f k (N s) (todo s).
Definition step (s : state) (o : op) : state :=
  let f := F s in let k := K s in let n := N s in
  match o with
  | Write p => match dget p (files f) with
               | Some i => set_fk (append i f) (push (map (fun w => EModify (w_path w)) (on i false k)) k) s
               | None => s
               end
  | WriteMoved i => set_fk (append i f) (push (map (fun w => EModify (w_path w)) (on i false k)) k) s
  | Create p => if room f p && negb (isfile f p) then set_fk (new_file p 0 f) (came f p ECreate k) s else s
  | MoveIn p c => if room f p then set_fk (new_file p c f) (came f p ECreate (drop_file f p k)) s else s
  | Rename q p =>
      match dget q (files f) with
      | Some i => if room f p && negb (eqb q p)
                  then set_fk (set_files (dset p i (ddel q (files f))) f) (came f p ECreate (drop_file f p k)) s
                  else s
      | None => s
      end
  | Remove p => if isfile f p then set_fk (set_files (ddel p (files f)) f) (drop_file f p k) s else s
  | MoveAway p => if isfile f p then set_fk (set_files (ddel p (files f)) f) k s else s
  | MkDir d => if room f d && negb (isfile f d)
               then set_fk (mkFS (files f) (dset d (fresh f) (dirs f)) (sizes f) (fresh f + 1)) (came f d ECreateDir k) s
               else s
  | RmDir d =>
      match dget d (dirs f) with
      | Some i => if eqb d [] || existsb (under d) (dkeys (files f)) || existsb (under d) (dkeys (dirs f)) then s
                  else set_fk (mkFS (files f) (ddel d (dirs f)) (sizes f) (fresh f)) (drop i true k) s
      | None => s
      end
  | MoveDir d =>
      match dget d (dirs f) with
      | Some i => if eqb d [] then s else
                  set_fk (mkFS (filter (fun x => negb (under d (fst x))) (files f))
                               (filter (fun x => negb (under d (fst x) || eqb d (fst x))) (dirs f)) (sizes f) (fresh f))
                         (push (map (fun w => EGone (w_path w)) (on i true k)) k) s
      | None => s
      end
  | Stray e => set_fk f (push [e] k) s
  | Callback =>
      match todo s, queue k with
      | [], e :: q => let (n1, t) := callback e f n in mkS f (mkK (watches k) (next_wd k) q) n1 t
      | _, _ => s
      end
  | Step => match todo s with m :: _ => micro_step m s | [] => s end
  | Check now later =>
      match todo s with
      | [] => if idle n then s else let (n1, t) := check_pending now later f n in mkS f k n1 t
      | _ => s
      end
  | AddLog p => match todo s with [] => add_log p s | _ => s end
  | DelLog p => match todo s with [] => del_log p s | _ => s end
  | SetIdle b => mkS f k (mkN (logs n) (wfiles n) (wdirs n) (pend n) (chk_time n) (min_time n) (seen n) b) (todo s)
  end.
Definition run (s : state) (ops : list op) : state := fold_left step ops s.
