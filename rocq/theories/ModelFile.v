(** * Model of the file functions: raw images, ENVI headers, BMP files.
    Source files (all under /repo/modules/core/src/c_src): hypermat.c, simplemat.c.

    The file system is the association list of the state.  A stream opened for
    writing is its path: every write extends the file at once (the programs close
    their streams before anybody else looks at the file).  A stream opened for
    reading is the list of the bytes not yet read.  [can p] says whether the path
    p can be opened for writing; the functions are studied for every [can].
    Writing never fails half-way (full disks are not modelled). *)
From Verif Require Import Base ModelFloat ModelCore ModelPixel.
From Coq Require Import Floats.SpecFloat String.
Open Scope Z_scope.

Definition path := list Z.

(** ** Streams *)

Definition fopen_w (can : path -> bool) (p : path) : M bool :=
  if can p then write_file p [] ;;; ret true else ret false.

Definition fopen_r (p : path) : M (option (list Z)) := fun _ s => Ret (file_of s p) s.

(** fputs, fprintf, fwrite of a local struct: append bytes. *)
Definition fput (p : path) (b : list Z) : M unit := fun e s =>
  match file_of s p with
  | Some old => write_file p (old ++ b) e s
  | None => UB
  end.

Definition iota (n : Z) : list Z := map Z.of_nat (seq 0 (Z.to_nat n)).

(** fwrite of n bytes of a heap buffer. *)
Definition fwrite (buf : ptr) (n : Z) (p : path) : M unit := fun e s =>
  match bytes_at s buf with
  | Some (_, sz, d) =>
      if (0 <=? n) && (n <=? sz) then fput p (map (fun i => d i mod 256) (iota n)) e s else UB
  | None => UB
  end.

(** fread of n bytes into a heap buffer; a short file fills less of it.  The
    result is the rest of the stream. *)
Definition fread (buf : ptr) (n : Z) (b : list Z) : M (list Z) := fun _ s =>
  match bytes_at s buf with
  | Some (q, sz, d) =>
      if (0 <=? n) && (n <=? sz) then
        Ret (skipn (Z.to_nat n) b)
            (putd s q (fun i => if (0 <=? i) && (i <? Z.min n (Z.of_nat (List.length b)))
                                then nth (Z.to_nat i) b 0 else d i))
      else UB
  | None => UB
  end.

(** The little-endian value of bytes. *)
Fixpoint le_value (l : list Z) : Z :=
  match l with [] => 0 | b :: r => b + 256 * le_value r end.
(** n bytes of a list from position i on. *)
Definition field (b : list Z) (i n : nat) : Z := le_value (firstn n (skipn i b)).

(** ** BMP files, simplemat.c 119-269 *)

(** simplemat.h 14-38: the two packed structs, 14 and 40 bytes. *)
Definition bmp_file_header (bfSize bfOffBits : Z) : list Z :=
  le_bytes 2 19778 ++ le_bytes 4 bfSize ++ le_bytes 2 0 ++ le_bytes 2 0 ++ le_bytes 4 bfOffBits.
Definition bmp_info_header (width height biBitCount biSizeImage : Z) : list Z :=
  le_bytes 4 40 ++ le_bytes 4 width ++ le_bytes 4 height ++ le_bytes 2 1 ++ le_bytes 2 biBitCount
  ++ le_bytes 4 0 ++ le_bytes 4 biSizeImage ++ le_bytes 4 100 ++ le_bytes 4 100
  ++ le_bytes 4 0 ++ le_bytes 4 0.

(** simplemat.c 244-246: exchange pixel k of row i with pixel 2-k of row h-1-i. *)
Definition bmp_swap (buf : ptr) (rowlen height i j k : Z) : M unit :=
  a <- ev (i * rowlen + j * 3 + k)%C ;;
  b <- ev ((height - i - 1) * rowlen + j * 3 + 2 - k)%C ;;
  t <- load8 buf a ;;
  v <- load8 buf b ;;
  store8 buf a v ;;;
  store8 buf b t.

(** simplemat.c 183-269: smwrite_bmp.  The index expressions of 244-246 are
    i*width*channels + ...; the model multiplies i by the value of width*channels,
    which has the same value; width*24 was evaluated before.  [name] is None for NULL. *)
Definition smwrite_bmp (can : path -> bool) (name : option path) (src_mat : ptr) : M unit :=
  match name with
  | None => exit_
  | Some bmpName =>
      assert (nonnull src_mat) ;;;
      ms <- sget src_mat ;;
      assert (sm_type ms =? 1) ;;;
      fp <- fopen_w can bmpName ;;
      assert fp ;;;
      mat <- (if sm_chan ms =? 1 then sm_gray2rgb src_mat else ret src_mat) ;;
      m <- sget mat ;;
      let imgBuf := sm_data m in
      let width := sm_cols m in
      let height := sm_rows m in
      lineByte <- ev ((width * 24 / 8 + 3) / 4 * 4)%C ;;
      total <- ev (lineByte * height)%C ;;
      fput bmpName (bmp_file_header (14 + 40 + 0 + total) (54 + 0)) ;;;
      fput bmpName (bmp_info_header width height 24 total) ;;;
      for_ 0 (Z.quot height 2) (fun i =>
        for_ 0 width (fun j =>
          for_ 0 3 (fun k =>
            rowlen <- ev (width * 3)%C ;;
            bmp_swap imgBuf rowlen height i j k))) ;;;
      packed <- ev (width * 24 / 8)%C ;;
      n <- ev (height * lineByte)%C ;;
      if lineByte >? packed then
        tmp <- malloc n ;;
        for_ 0 height (fun i =>
          w3 <- ev (width * 3)%C ;;
          memcpy tmp (i * lineByte) imgBuf (i * w3) w3) ;;;
        fwrite tmp n bmpName ;;;
        free tmp
      else fwrite imgBuf n bmpName
  end.

(** simplemat.c 119-176: smread_bmp.  The info header is a local variable filled
    by fread: a file with fewer than 54 bytes leaves part of it uninitialised,
    which the model counts as undefined. *)
Definition smread_bmp (name : option path) : M ptr :=
  match name with
  | None => exit_
  | Some bmpName =>
      fp <- fopen_r bmpName ;;
      match fp with
      | None => exit_
      | Some content =>
          (if (List.length content <? 54)%nat then ub else ret tt) ;;;
          let bmpWidth := sgn 32 (field content 18 4) in
          let bmpHeight := sgn 32 (field content 22 4) in
          let biBitCount := field content 28 2 in
          lineByte <- ev ((bmpWidth * biBitCount / 8 + 3) / 4 * 4)%C ;;
          rest <- (if biBitCount =? 8 then
                     pColorTable <- malloc 4096 ;;
                     fread pColorTable 1024 (skipn 54 content)
                   else ret (skipn 54 content)) ;;
          n <- ev (lineByte * bmpHeight)%C ;;
          pBmpBuf <- malloc n ;;
          fread pBmpBuf n rest ;;;
          for_ 0 (Z.quot bmpHeight 2) (fun i =>
            for_ 0 bmpWidth (fun j =>
              for_ 0 3 (fun k => bmp_swap pBmpBuf lineByte bmpHeight i j k))) ;;;
          res <- create_simple_mat bmpHeight bmpWidth 1 3 ;;
          mr <- sget res ;;
          let res_data := sm_data mr in
          packed <- ev (bmpWidth * biBitCount / 8)%C ;;
          (if lineByte =? packed then memcpy res_data 0 pBmpBuf 0 n
           else
             for_ 0 bmpHeight (fun i =>
               d <- ev (i * bmpWidth * 3)%C ;;
               b <- ev (i * lineByte)%C ;;
               w3 <- ev (bmpWidth * 3)%C ;;
               memcpy res_data d pBmpBuf b w3)) ;;;
          free pBmpBuf ;;;
          ret res
      end
  end.

(** simplemat.c 68-88: smread.  The buffer has rows*cols elements, whatever the
    number of channels. *)
Definition smread (name : option path) (rows cols data_type channels : Z) : M ptr :=
  match name with
  | None => exit_
  | Some image_path =>
      fp <- fopen_r image_path ;;
      match fp with
      | None => exit_
      | Some content =>
          let elem_size := get_elemsize data_type in
          data_size <- ev (rows * cols)%C ;;
          n <- ev (data_size * elem_size)%C ;;
          data <- malloc n ;;
          fread data n content ;;;
          create_simple_mat_with_data rows cols data_type channels data
      end
  end.

(** ** Printing *)

(** fprintf "%d". *)
Fixpoint dec_go (fuel : nat) (n : Z) (acc : list Z) : list Z :=
  match fuel with
  | O => acc
  | S f => if n <? 10 then (48 + n) :: acc else dec_go f (n / 10) ((48 + n mod 10) :: acc)
  end.
Definition dec (n : Z) : list Z := dec_go (S (Z.to_nat (Z.log2 n))) n [].
Definition print_d (z : Z) : list Z := if z <? 0 then 45 :: dec (- z) else dec z.

(** fprintf "%f": the value rounded to six decimals, halves to even.  NaNs are
    printed without a sign. *)
Fixpoint digits (n : nat) (v : Z) : list Z :=
  match n with O => [] | S n' => digits n' (v / 10) ++ [48 + v mod 10] end.
Definition half_even (n d : Z) : Z :=
  let q := n / d in
  let r := 2 * (n mod d) in
  if r <? d then q else if d <? r then q + 1 else if Z.even q then q else q + 1.
Definition print_f (x : sf) : list Z :=
  match x with
  | S754_nan => chars "nan"
  | S754_infinity s => (if s then [45] else []) ++ chars "inf"
  | S754_zero s => (if s then [45] else []) ++ chars "0.000000"
  | S754_finite s m e =>
      let q := if 0 <=? e then Z.pos m * 2 ^ e * 1000000 else half_even (Z.pos m * 1000000) (2 ^ (- e)) in
      (if s then [45] else []) ++ dec (q / 1000000) ++ [46] ++ digits 6 q
  end.

(** ** Raw image files and ENVI headers, hypermat.c *)

(** The string in a buffer: the characters before the first NUL. *)
Fixpoint cstr (l : list Z) : list Z :=
  match l with [] => [] | c :: r => if c =? 0 then [] else c :: cstr r end.

(** hypermat.c 337-386: writehdr.  The path and tag buffers (347-356, 367-370)
    are lists.  A header that cannot be opened is written through NULL. *)
Definition writehdr (can : path -> bool) (img_path : path) (samples lines bands data_type : Z)
    (interleave : list Z) (wavelength : ptr) : M unit :=
  let hdr_path := img_path ++ chars ".hdr" in
  ok <- fopen_w can hdr_path ;;
  (if ok then ret tt else ub) ;;;
  fput hdr_path (chars "ENVI" ++ [10]) ;;;
  fput hdr_path (chars "samples = " ++ print_d samples ++ [10]) ;;;
  fput hdr_path (chars "lines = " ++ print_d lines ++ [10]) ;;;
  fput hdr_path (chars "bands = " ++ print_d bands ++ [10]) ;;;
  fput hdr_path (chars "data type = " ++ print_d data_type ++ [10]) ;;;
  it <- tag3 interleave ;;
  fput hdr_path (chars "interleave = " ++ cstr it ++ [10]) ;;;
  if nonnull wavelength then
    fput hdr_path (chars "wavelength = { " ++ [10]) ;;;
    last <- ev (bands - 1)%C ;;
    for_ 0 last (fun i =>
      x <- loadf wavelength i ;;
      fput hdr_path (print_f x ++ chars ",")) ;;;
    x <- loadf wavelength last ;;
    fput hdr_path (print_f x ++ chars "}")
  else fput hdr_path (chars "wavelength = unknown " ++ [10]).

(** hypermat.c 309-325: hmsave. *)
Definition hmsave (can : path -> bool) (name : option path) (mat : ptr) : M unit :=
  match name with
  | None => exit_
  | Some image_path =>
      assert (nonnull mat) ;;;
      m <- hget mat ;;
      let elemsize := get_elemsize (hm_type m) in
      ok <- fopen_w can image_path ;;
      assert ok ;;;
      count <- ev (hm_samples m * hm_lines m * hm_bands m)%C ;;
      fwrite (hm_data m) (count * elemsize) image_path ;;;
      writehdr can image_path (hm_samples m) (hm_lines m) (hm_bands m) (hm_type m) (hm_il m) (hm_wave m)
  end.

(** hypermat.c 275-302: hmread_with_size.  The two buffers are never freed. *)
Definition hmread_with_size (name : option path) (samples lines bands data_type : Z)
    (interleave : list Z) : M ptr :=
  match name with
  | None => exit_
  | Some image_path =>
      assert ((samples >? 0) && (lines >? 0) && (bands >? 0)) ;;;
      fp <- fopen_r image_path ;;
      match fp with
      | None => ret None
      | Some content =>
          let elem_size := get_elemsize data_type in
          data_size <- ev (samples * lines * bands)%C ;;
          data <- malloc (data_size * elem_size) ;;
          fread data (data_size * elem_size) content ;;;
          wavelength <- malloc (bands * 4) ;;
          create_hyper_mat_with_data samples lines bands data_type interleave data wavelength
      end
  end.

(** ** Reading an ENVI header *)

(** hypermat.c 9-15. *)
Definition MAXLINE : Z := 10000.
Definition MAXWAVECHAR : Z := 20.

(** fgets: at most n characters, up to and including a newline. *)
Fixpoint fgets_go (n : nat) (t : list Z) : list Z * list Z :=
  match n with
  | O => ([], t)
  | S n' =>
      match t with
      | [] => ([], [])
      | c :: r => if c =? 10 then ([c], r)
                  else let (l, r') := fgets_go n' r in (c :: l, r')
      end
  end.
Definition fgets (t : list Z) : list Z * list Z := fgets_go (Z.to_nat (MAXLINE - 1)) t.

Definition isspace (c : Z) : bool := (c =? 32) || ((9 <=? c) && (c <=? 13)).
Definition isdigit (c : Z) : bool := (48 <=? c) && (c <=? 57).

(** "%[^=]": the characters before the first '='; none is a matching failure. *)
Fixpoint upto_eq (l : list Z) : list Z * list Z :=
  match l with
  | [] => ([], [])
  | c :: r => if c =? 61 then ([], l) else let (a, b) := upto_eq r in (c :: a, b)
  end.
(** "%*[^=]=": what follows. *)
Definition after_eq (l : list Z) : option (list Z) :=
  match upto_eq l with
  | (_ :: _, _ :: r) => Some r
  | _ => None
  end.

Fixpoint skip_space (l : list Z) : list Z :=
  match l with [] => [] | c :: r => if isspace c then skip_space r else l end.
Fixpoint take_digits (l : list Z) : list Z :=
  match l with [] => [] | c :: r => if isdigit c then c :: take_digits r else [] end.
Definition digits_value (l : list Z) : Z := fold_left (fun a c => 10 * a + (c - 48)) l 0.

(** "%d": the result is None on a matching failure. *)
Definition scan_d (l : list Z) : option Z :=
  let l := skip_space l in
  let '(neg, l) := match l with
                   | c :: r => if c =? 45 then (true, r) else if c =? 43 then (false, r) else (false, l)
                   | [] => (false, l) end in
  match take_digits l with
  | [] => None
  | ds => Some (if neg then - digits_value ds else digits_value ds)
  end.

(** sscanf(line, "%*[^=]=%d", &temp): a number outside the ints is undefined. *)
Definition sscanf_d (line : list Z) (temp : Z) : M Z :=
  match after_eq line with
  | None => ret temp
  | Some r => match scan_d r with
              | None => ret temp
              | Some z => if in_int z then ret z else ub
              end
  end.

(** sscanf(line, "%*[^=]=%c%c%c%c", ...): as many cells of [it] as there are
    characters. *)
Fixpoint sscanf_c (it : list (option Z)) (r : list Z) : list (option Z) :=
  match it, r with
  | _ :: it', c :: r' => Some c :: sscanf_c it' r'
  | _, _ => it
  end.

(** hypermat.c 39-62: read_wavelength. *)
Fixpoint find_nul (n : nat) (i : Z) (d : Z -> Z) : option Z :=
  match n with
  | O => None
  | S n' => if d i mod 256 =? 0 then Some i else find_nul n' (i + 1) d
  end.
Definition strlen (p : ptr) : M Z := fun _ s =>
  match bytes_at s p with
  | Some (_, sz, d) => match find_nul (Z.to_nat sz) 0 d with Some n => Ret n s | None => UB end
  | None => UB
  end.

(** What atof reads of a buffer: blanks are skipped, then the characters up to
    the next blank or NUL are looked at; running off the buffer is undefined.
    The number they denote is the library's business: [strtod]. *)
Fixpoint token_chars (n : nat) (i : Z) (d : Z -> Z) : option (list Z) :=
  match n with
  | O => None
  | S n' => let c := d i mod 256 in
            if isspace c || (c =? 0) then Some []
            else match token_chars n' (i + 1) d with Some l => Some (c :: l) | None => None end
  end.
Fixpoint token_at (n : nat) (i : Z) (d : Z -> Z) : option (list Z) :=
  match n with
  | O => None
  | S n' => if isspace (d i mod 256) then token_at n' (i + 1) d else token_chars n i d
  end.
Definition atof (strtod : list Z -> sf) (p : ptr) : M sf := fun _ s =>
  match bytes_at s p with
  | Some (_, sz, d) => match token_at (Z.to_nat sz) 0 d with Some t => Ret (strtod t) s | None => UB end
  | None => UB
  end.

Definition blank_tmp (tmp : ptr) : M unit := for_ 0 MAXWAVECHAR (fun i => store8 tmp i 32).

(** State of the loop of 46-59: t, n, and whether the loop was left. *)
Definition read_wavelength_step (strtod : list Z -> sf) (w wavelength tmp : ptr) (bands i : Z)
    (x : Z * Z * bool) : M (Z * Z * bool) :=
  let '(t, n, done) := x in
  if done then ret x
  else
    c <- load8 w i ;;
    tn <- (if negb (c =? 44) && negb (c =? 125) then
             store8 tmp t c ;;; ret (t + 1, n)
           else
             v <- atof strtod tmp ;;
             storef wavelength n (fl_of_db v) ;;;
             blank_tmp tmp ;;;
             ret (0, n + 1)) ;;
    ret (fst tn, snd tn, (c =? 125) || (snd tn =? bands)).

Definition read_wavelength (strtod : list Z -> sf) (w wavelength : ptr) (bands : Z) : M unit :=
  tmp <- malloc MAXWAVECHAR ;;
  blank_tmp tmp ;;;
  len <- strlen w ;;
  forS 0 len (read_wavelength_step strtod w wavelength tmp bands) (0, 0, false) ;;;
  free tmp.

(** What readhdr knows: the out parameters (None: not yet written), its local
    copies, the interleave cursor and characters, the item, the wavelengths. *)
Record hdr := mkHdr {
  h_samples : option Z; h_lines : option Z; h_bands : option Z; h_type : option Z;
  h_sampletemp : Z; h_linetemp : Z; h_bandtemp : Z; h_datatypetemp : Z;
  h_pos : Z; h_it : list (option Z); h_item : option (list Z); h_wave : option ptr }.
Definition hdr0 : hdr :=
  mkHdr None None None None 0 0 0 0 0 [None; None; None; None] None None.

(** hypermat.c 120-124: store the non-blank characters. *)
Fixpoint put_interleave (il : ptr) (pos : Z) (it : list (option Z)) : M Z :=
  match it with
  | [] => ret pos
  | None :: _ => ub
  | Some c :: r => if c =? 32 then put_interleave il pos r
                   else store8 il pos c ;;; put_interleave il (pos + 1) r
  end.

Definition has (c : Z) (l : list Z) : bool := existsb (Z.eqb c) l.

(** hypermat.c 133-137: copy the line without its newlines. *)
Fixpoint copy_line (w : ptr) (t : Z) (l : list Z) : M Z :=
  match l with
  | [] => ret t
  | c :: r => if c =? 10 then copy_line w t r else store8 w t c ;;; copy_line w (t + 1) r
  end.

(** hypermat.c 131-138: the loop over the wavelength lines; state: line, rest of
    the file, t_w. *)
Definition wave_lines (w : ptr) (line rest : list Z) : M (list Z * list Z * Z) :=
  whileF (S (List.length rest))
    (fun x => let '(line, rest, _) := x in
              negb (has 125 line) && match rest with [] => false | _ => true end)
    (fun x => let '(_, rest, t) := x in
              let (l, rest') := fgets rest in
              let line := cstr l in
              t' <- copy_line w t line ;;
              ret (line, rest', t'))
    (line, rest, 0).

(** hypermat.c 95-143: one line of the header. *)
Definition readhdr_line (strtod : list Z -> sf) (il : ptr) (line rest : list Z) (h : hdr) : M (hdr * list Z) :=
  let item := match fst (upto_eq line) with [] => h_item h | l => Some l end in
  match item with
  | None => ub
  | Some it =>
      let h := mkHdr (h_samples h) (h_lines h) (h_bands h) (h_type h) (h_sampletemp h) (h_linetemp h)
                     (h_bandtemp h) (h_datatypetemp h) (h_pos h) (h_it h) item (h_wave h) in
      c1 <- cmpstr (it ++ [0]) (str "samples") ;;
      if c1 =? 1 then
        z <- sscanf_d line (h_sampletemp h) ;;
        ret (mkHdr (Some z) (h_lines h) (h_bands h) (h_type h) z (h_linetemp h) (h_bandtemp h)
                   (h_datatypetemp h) (h_pos h) (h_it h) (h_item h) (h_wave h), rest)
      else
      c2 <- cmpstr (it ++ [0]) (str "lines") ;;
      if c2 =? 1 then
        z <- sscanf_d line (h_linetemp h) ;;
        ret (mkHdr (h_samples h) (Some z) (h_bands h) (h_type h) (h_sampletemp h) z (h_bandtemp h)
                   (h_datatypetemp h) (h_pos h) (h_it h) (h_item h) (h_wave h), rest)
      else
      c3 <- cmpstr (it ++ [0]) (str "bands") ;;
      if c3 =? 1 then
        z <- sscanf_d line (h_bandtemp h) ;;
        ret (mkHdr (h_samples h) (h_lines h) (Some z) (h_type h) (h_sampletemp h) (h_linetemp h) z
                   (h_datatypetemp h) (h_pos h) (h_it h) (h_item h) (h_wave h), rest)
      else
      c4 <- cmpstr (it ++ [0]) (str "data") ;;
      if c4 =? 1 then
        z <- sscanf_d line (h_datatypetemp h) ;;
        ret (mkHdr (h_samples h) (h_lines h) (h_bands h) (Some z) (h_sampletemp h) (h_linetemp h)
                   (h_bandtemp h) z (h_pos h) (h_it h) (h_item h) (h_wave h), rest)
      else
      c5 <- cmpstr (it ++ [0]) (str "interleave") ;;
      if c5 =? 1 then
        let it4 := match after_eq line with None => h_it h | Some r => sscanf_c (h_it h) r end in
        pos <- put_interleave il (h_pos h) it4 ;;
        ret (mkHdr (h_samples h) (h_lines h) (h_bands h) (h_type h) (h_sampletemp h) (h_linetemp h)
                   (h_bandtemp h) (h_datatypetemp h) pos it4 (h_item h) (h_wave h), rest)
      else
      c6 <- cmpstr (line ++ [0]) (str "wavelength = {") ;;
      if c6 =? 1 then
        n <- ev (MAXWAVECHAR * h_bandtemp h)%C ;;
        w <- malloc n ;;
        x <- wave_lines w line rest ;;
        let '(_, rest', _) := x in
        wave <- malloc (h_bandtemp h * 4) ;;
        read_wavelength strtod w wave (h_bandtemp h) ;;;
        free w ;;;
        ret (mkHdr (h_samples h) (h_lines h) (h_bands h) (h_type h) (h_sampletemp h) (h_linetemp h)
                   (h_bandtemp h) (h_datatypetemp h) (h_pos h) (h_it h) (h_item h) (Some wave), rest')
      else ret (h, rest)
  end.

(** hypermat.c 82-145: readhdr.  The line and item buffers are lists; a NUL inside
    a line hides the rest of it from the string functions. *)
Definition readhdr (strtod : list Z -> sf) (text : list Z) (il : ptr) : M hdr :=
  x <- whileF (S (List.length text))
         (fun x => match snd x with [] => false | _ => true end)
         (fun x => let (l, rest) := fgets (snd x) in
                   readhdr_line strtod il (cstr l) rest (fst x))
         (hdr0, text) ;;
  ret (fst x).

(** An out parameter that was never written. *)
Definition written_or_ub (x : option Z) : M Z := match x with Some z => ret z | None => ub end.

(** hypermat.c 225-264: hmread_with_hdr.  The tag buffer is not terminated: its
    three bytes are read by the constructor. *)
Definition hmread_with_hdr (strtod : list Z -> sf) (image_name hdr_name : option path) : M ptr :=
  match image_name, hdr_name with
  | Some image_path, Some hdr_path =>
      interleave <- malloc 3 ;;
      image_fp <- fopen_r image_path ;;
      hdr_fp <- fopen_r hdr_path ;;
      match image_fp, hdr_fp with
      | Some content, Some text =>
          h <- readhdr strtod text interleave ;;
          samples <- written_or_ub (h_samples h) ;;
          lines <- written_or_ub (h_lines h) ;;
          bands <- written_or_ub (h_bands h) ;;
          data_type <- written_or_ub (h_type h) ;;
          let elem_size := u32 (get_elemsize data_type) in
          data_size <- ev (samples * lines * bands)%C ;;
          data <- malloc (data_size * elem_size) ;;
          assert (nonnull data) ;;;
          fread data (data_size * elem_size) content ;;;
          a <- load8 interleave 0 ;;
          b <- load8 interleave 1 ;;
          c <- load8 interleave 2 ;;
          mat <- create_hyper_mat_with_data samples lines bands data_type [a; b; c] data
                   (match h_wave h with Some p => p | None => None end) ;;
          free interleave ;;;
          ret mat
      | _, _ => ret None
      end
  | _, _ => exit_
  end.
