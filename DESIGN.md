# Design of the blazert model

blazert is a header-only C++ ray tracer: a binned-SAH builder for bounding
volume hierarchies (BVH), a stack traversal, four primitive kinds (triangle
mesh, sphere, plane patch, cylinder), a scene API and an optional Embree
backend.  Its examples add a path tracer, a renderer, an OBJ reader and image
writers.  The model is written in Rocq/Coq 8.16 under `rocq/theories`.

## How the code is modelled

* **Scalars.** The code is templated over `T` (float or double).  Every model
  function is written once over a record of scalar operations (`num`, without
  laws), and is then used at several instances:
  * *any* instance: structural theorems (which primitives are stored, node
    layout, statistics, memory safety, scene state machine) use no law of
    arithmetic, so they hold for IEEE binary32/binary64 with NaN, infinities
    and any rounding;
  * *exact* (`Xnum big tiny eps` over `xr`): real numbers extended with
    infinities, NaN and signed zeros, i.e. IEEE arithmetic with the rounding
    removed and no overflow.  Geometric theorems are stated here, for every
    value `big` of numeric_limits::max, `tiny` of min and `eps` of epsilon.
    Division by zero gives an infinity or NaN as in the code, never a junk real
    number;
  * *real numbers* (`Rnum`): proof device for the geometric lemmas, always
    under explicit nonzero-divisor hypotheses;
  * *IEEE binary formats* (`Fnum prec emax` over `Coq.Floats.SpecFloat`; `F32`,
    `F64`): computable, used for concrete witnesses of violations and for the
    theorems about rounding (C68, C71, C81-C85, C87-C91, C95, C101-C110), which hold in every binary format of
    enough digits and are linked to the reals through Flocq.
* **Undefined behaviour** is a distinct outcome (`UB reason`): out-of-bounds
  vector or stack access, conversion of an out-of-range float to unsigned, use
  of a freed Embree user pointer.
* **`std::partition`** is a parameter: any function that meets the standard's
  contract (`partition_ok`).  libstdc++'s two-ended version shows that the
  contract can be met.
* **Loops** are folds, or recursion on fuel with a distinct out-of-fuel outcome
  that the theorems exclude.
* **Unsigned -1** ("none") is `None`; other unsigned values are `nat`.  Sizes
  are assumed to stay below 2^32.
* **References.** The code keeps references to the caller's vectors.  The model
  copies their contents, so callers must not change them later.
* **Early returns.** In `cyl_local` and `ecyl_local` the areas of the code are
  `if`s that follow each other; `orelse ... last` and `Leave`/`Through` say
  which of them return and which fall through.
* **Evaluation order** of operands does not matter: the expressions have no
  side effects.  Sums and products associate to the left as in C++.
* **Embree** is an oracle.  rtcAttachGeometry numbers geometries 0, 1, ...;
  rtcCommitScene runs each bounds callback; rtcIntersect1 runs intersection
  callbacks in an arbitrary order given as a list of ids (`calls`); triangle
  intersection is an arbitrary function (`tri`).  Theorems are for all of
  these.

## Files

Model files carry the citation of the code they model.

| model | code |
|-------|------|
| `Num`, `Vec` | scalar operations; blaze's 3-vectors and 3x3 matrices |
| `NumR`, `NumX`, `NumF` | the instances above |
| `Datatypes` | datatypes.h: `Stack`, `unity`; binbuffer.h: `calculate_box_surface` |
| `ProductSign` | datatypes.h: `as`, `product_sign` on bit patterns (Flocq's encodings) |
| `Ray` | ray.h: `Ray`, `RayHit` |
| `Bvh` | bvh/{node,options,statistics,bbox,binbuffer,builder}.h |
| `Traverse` | bvh/{intersect,accel}.h |
| `Sphere`, `Plane`, `Cylinder`, `CylDist` | primitives/{sphere,plane,cylinder}.h |
| `Trimesh`, `TriDist` | primitives/{trimesh,trimesh_distance}.h |
| `Scene` | scene.h |
| `DataExtra` | datatypes.h: `intersection`, `sgn` |
| `Embree` | embree/primitives/*.h |
| `EmbreeScene` | embree/scene.h |
| `PathTracer` | examples/path_tracer/main.cc: frames, sampling, optics, light, shadow test, path loop |
| `TinyObj` | examples/common/tiny_obj_loader.cc; `LoadObj` of the examples |
| `ObjText` | examples/common/tiny_obj_loader.cc: characters, numbers, tokens, lines, files |
| `Image` | loops over the pixels, `SaveImagePNG`, the PPM writer of examples/renderer/renderer.cc, `progressBar` |
| `ScenePic` | examples/scene_primitives/main.cc |
| `Camera` | examples/renderer: camera, image axes, pixel directions, `render`; the fixed camera of the other examples |
| `PathMain` | examples/path_tracer/main.cc: `main` |
| `Zlib`, `Png` | examples/common/stb_image_write.h: the compressor and the PNG writer |
| `Mains` | `main` of examples/renderer, examples/scene_mesh and examples/benchmark_blaze; the PPM header |
| `Print` | the 17 stream output operators, as the text they append; how the stream writes numbers and addresses is an argument |

`Spec*.v` hold the independent specifications, `Pf*.v` the proofs, `Case*.v`
concrete cases and counterexamples, `Prop*.v` only the property theorems, each
followed by `Print Assumptions`, with `Example ..._case` beside them.

### The model against the project's own tests

`Suite*.v` hold every CHECK of /repo/test (726 checks in double, the same in float, and
421 of the Embree primitives in float), translated from the test sources by
`tools/suite.py`; `SuiteScene` is written by hand.  `CaseSuite` evaluates the model on
them with the arithmetic of the test's type and doctest's tolerance.  All hold.  So the model
answers as the authors expect of the code, on their own examples.  These are tests of
the model's faithfulness, no theorem depends on them.  The Embree tests take Embree to call
every object once, in order.  Also recorded are the WARN lines which the model fails: a node
at infinity, and rays a few units in the last place beyond the border of a triangle.

## Per property

| id | what is modelled | how it is proved |
|----|------------------|------------------|
| C01-C04 | builder: `build`, `build_recursive`, `create_leaf`, `create_branch`, `split`, binning | induction on the recursion against an inductive tree relation over the node array; any arithmetic |
| C05 | the same, with the unsigned conversion of bin indices | interval reasoning in exact arithmetic; undefined for bin_size 0 and centers outside boxes |
| C06 | `compute_bounding_box`, `unity` | induction; any arithmetic whose comparison is a strict total order on the coordinates used, in particular IEEE without NaN |
| C07 | binning and the two SAH sweeps | loop invariants; counts and boxes in any arithmetic, the rest exact.  The world position of the cut is not the boundary of the bins that were costed (refuted) |
| C08, C09 | `traverse` with the fixed stack | invariant on the stack (sizes and disjoint subtrees); refuted for depth 27 and 28.  Few primitives (30 with the default options) make low trees |
| C10 | `intersect_node`, `Ray` | exact arithmetic, per axis case analysis; refuted for signed zero, faces through the origin, scaled directions |
| C11-C14 | `traverse` over the built tree, abstract intersection routine with a contract | invariant over the stack: nothing nearer remains outside the stacked subtrees.  C14 for meshes needs zero tolerance (refuted otherwise) |
| C15 | `Ray` constructor | refuted by a witness; proved for unit directions, and for longer ones with min distance 0 |
| C16-C19 | sphere.h | real algebra (quadratic roots), triangle inequality |
| C20-C23 | plane.h | real linear algebra; C23 refuted off-centre |
| C24-C27 | trimesh.h | real algebra (Cramer), list induction for vertex normals |
| C28, C29 | trimesh_distance.h, trimesh.h:183-192 | convexity: first-order optimality in each region; C29 refuted (wrong vertices) |
| C30-C34 | cylinder.h | real algebra; each refuted in part |
| C35, C36, C38-C41 | scene.h as a state machine | induction over call histories |
| C37 | `intersect1` | the blocks combine the geometries' own answers (any ordered arithmetic); nearest hit through C11, with cylinders if at most one is met, only the flag and a fitting record for more; nearest refuted for two |
| C42-C46, C50-C53, C55, C56 | Embree callbacks and scene | agreement by case analysis, histories by induction; C43, C45, C46, C56 refuted |
| C54 | `intersect1` of the Embree scene, any order of the callbacks | invariant over the callback list: the record holds the least hit so far |
| C47 | `Stack` | refinement to a list |
| C48 | `product_sign` on binary floats | bit-level reasoning with Flocq |
| C49 | bin indices in binary64 | refuted for denormal and for huge boxes |
| C57, C58 | `intersection`, `sgn` | interval reasoning; case analysis, any IEEE format |
| C59-C63 | path tracer: frame, sampling, reflection, refraction, choice of the interaction | real algebra; the ratio of refractive indices and the treatment of opaque materials are refuted |
| C64 | path tracer: light | list induction and real algebra |
| C65 | path tracer: shadow test | C11's contract with the any-hit query |
| C69 | path tracer: path loop | invariant over the bounces |
| C66, C72, C73 | OBJ reader | refinement: the reader's state (caches, open polygons, shapes) against a relational description of the file, induction over the lines |
| C70 | OBJ file to nearest hit | composition of C66 and C11 |
| C67, C68, C74 | images, bytes, bar | loop invariants; rounding lemmas through Flocq |
| C75 | renderer camera and the pinhole camera of the other examples | vector algebra (orthonormal frame), separation of pixels |
| C76 | `render` of the renderer example | composition of C75, C11, C27 and C66 per pixel |
| C77-C80 | text of OBJ and material files | a grammar that prints values, and the reader applied to the printed text: induction over digits, corners and lines; composition with C70 |
| C81 | accuracy of numbers in double and float | relative error (1+u)^k - 1 carried through the digits with a range of exponents that excludes overflow and underflow; exactness of integers by rounding of representable values |
| C82-C84 | triangles, normalised directions and mesh queries with rounding | forward error bounds carried through each operation; a bound on the final distance as invariant over the visit, growing by one rounding per accepted face |
| C85 | mesh construction with rounding, from the vertices to the answer | error bound of the center; the bin number of a center outside its box by less than half a bin; C49 with that slack; C84 |
| C86 | examples/scene_primitives: its scene, picture and bytes | C37 and C67 per pixel; a line that runs into a solid pierces its surface before (intermediate values).  One of the four solids is never drawn: the eye lies beside its cap (C30) |
| C87 | sphere routine with rounding | error of the discriminant in terms of M; the computed roots satisfy the exact equation up to a residual; sign changes of a parabola place the smaller root before the crossing |
| C88 | spheres with rounding, from centers and radii to the answer | a point deep enough inside a sphere lies in its rounded box; C71, C49 and the invariant of C84; normals by comparing unit vectors |
| C89 | patch routine with rounding | error bounds relative to vectors' norms; local coordinates and parameter up to multiples of u M; dividing by the steepness turns the error along the normal into one along the ray |
| C90 | patches with rounding, from their numbers to the answer | a pierced patch's rounded box is met near the piercing point: margins absorb the box's error on axes where the patch is wide, and where it is thin the ray crosses the box quickly; C71, C49 and the invariant of C84 |
| C91 | scene queries with rounding | C37's combination of the geometries' answers, which holds in any ordered arithmetic; C84, C88, C90 and C102 for each geometry; a bound for one distance holds for every smaller one |
| C92 | counts, indices and closedness of the benchmark's sphere | the mesh as a list of point triples; subdividing keeps "every edge has its opposite" |
| C93 | the sphere in exact arithmetic | the smallest cosine between corners obeys c' = 1/2 (1 + c) / mean, solved in closed form; four cones tile a cone; the icosahedron by 20 computed inverse matrices |
| C94 | rays from the center | C93's covering, the exact mesh query, bounds on the distance from C93 |
| C96 | the renderer as a whole: file in, file out | composition of C80, C76 and C67; decimal printing by induction on the digits |
| C97 | scene_mesh and benchmark_blaze as a whole | C80 for every pixel's ray, which never has a level direction |
| C98 | stream output operators and JSON | scanner and grammar of JSON in `SpecJson` (numbers are any words, no escapes); induction over the primitives; two tokens that never follow each other refute the rest |
| C99 | the path tracer's `main` | composes the loader (C80), the build (C11), the path loop (C69) and the PNG bytes (C68); two texts run in doubles refute dropping materials or lights |
| C100 | the PNG writer | round trip through an independent decoder: the bit buffer holds the bits not yet written, each match refers to bytes already decoded; CRC: register method = division of the extended message, the table by linearity; filters inverted byte by byte |
| C101 | cylinder routine with rounding | error of the scaled quadratic relative to (M/r)^2; residuals of the computed roots; each of the code's cases compared with the exact ray in the cylinder's coordinates; intermediate values between a point outside and one inside |
| C102 | queries on cylinders with rounding | rounding of the six tips that span a box; a deep point lies inside the rounded box; the state's origin and direction are kept, so C101 applies to the last accepted cylinder |
| C103 | normals of cylinders with rounding | gradients of two nearby points differ little relative to their norm; rounding of gradient, rotation and normalization; the code's cases that skip the rotation are exactly those from inside that are not level |
| C104 | normals of meshes with rounding | the cross product's error relative to the product of the edges, hence to the area by the angle; each addition around a vertex adds one rounding, by induction over the faces with the valence as counter; the recorded weights are at most 8 since no face is edge-on |
| C105 | Embree's callbacks of spheres and planes with rounding | the native roots and the native patch test (C87, C89) carry over; the second report of the sphere sees the first one's distance |
| C106 | `intersect1` of the Embree scene with rounding, any order of the callbacks | invariant over the callback list: each callback moves the answer by at most two error terms; a point deep inside a shape lies in its rounded bounds |
| C107 | `distance_to_surface` of spheres and patches with rounding | the length of a difference and one subtraction; the foot point's local coordinates carry the error of C89; Embree's plane returns 0 |
| C108 | Embree's cylinder intersection callback with rounding | its areas test the same quantities as the native routine's; with the roots in order (C101) both find the same parameter; every normal it stores is turned |
| C109 | Embree's cylinder occlusion callback with rounding | outside, whatever the intersection callback hits is marked in any arithmetic; inside, the roots' signs (C101), and the discriminant is exactly 0 along the axis |
| C110 | queries on Embree-backed scenes of one cylinder with rounding | the callback gives the same record however often it is run, so the query's answer is that of C108; the box of an axis-aligned cylinder is exact up to one rounding per side; the interval is ignored (refuted) |
| C95 | no drift | one subdivision step maps norms near 1 to norms within 9u of 1, by relative error bounds |
| C71 | node test, builder and traversal with rounding | error analysis of each slab distance (Flocq), invariant over the stack |

## Trusted base

* Coq 8.16.1's kernel (the build uses `vm_compute`; coqchk re-checks).
* The axioms that `Print Assumptions` lists, below.  All come from the standard
  library: `sig_forall_dec`, `sig_not_dec` (ClassicalDedekindReals),
  `functional_extensionality_dep`, and `classic` (through Flocq's
  `IEEE754.Binary`).
* The reading of the code: each definition cites file and lines.
* Blaze vector operations (`dot`, `cross`, `norm`, `normalize`, `trans`,
  matrix-vector product, componentwise operators) have their mathematical
  meaning, evaluated left to right.  Blaze's `normalize` divides by the norm, and
  dividing a vector by a number divides each component.  (If Blaze multiplies by
  the reciprocal instead, nothing changes in exact arithmetic; with rounding the
  constants of C83-C85, C87-C90 and C101-C110 allow for one rounding less than the code then makes, and
  the counterexamples of C85, C87 and C89 stay so.)
* `std::partition` meets its contract, `std::round` and the conversion to
  unsigned are as in the standard.
* `abs` without `std::` (plane.h, EmbreePlane.h) is the floating point one.
* `as<>` copies the object representation, and float/double are the IEEE 754
  interchange formats (C48).
* Random numbers, `cos`, `sin`, `tan`, `pow`, the stored constant pi and the
  contents of material files are arguments of the model; theorems state what
  they need of them.
* `strspn`, `strcspn`, `strncmp`, `atoi`, `sscanf` and `isdigit` are as in the C
  standard (C locale; `isdigit` of a byte above 127 is false), and
  `istream::peek` and `getline` as in the C++ standard.  `pow`, `ldexp` and the
  conversion from double to float are arguments of the reader: exact in C77-C80;
  in C81 `pow` is off by at most one unit in the last place, `ldexp` is exact in
  the normal range and the conversion rounds to nearest even.  C66-C76 take a
  file as its commands; C79 and C80 connect them to the text.
* Compiler flags such as fused multiply-add or `-fno-signed-zeros`, and extended
  precision, are not modelled.

### Modelled

* datatypes.h: `Stack`, `as`, `product_sign`, `unity`, `intersection`, `sgn`.
* ray.h: `Ray` constructor, `RayHit`.
* bvh: all of node.h, options.h, statistics.h (without the build time),
  bbox.h, binbuffer.h, builder.h, intersect.h, accel.h.
* primitives: collections, boxes, `intersect_primitive`, `prepare_traversal`,
  `post_traversal`, `distance_to_surface` of all four kinds.
* scene.h: `BlazertScene`.
* embree: the bounds, intersection and occlusion callbacks; `EmbreeScene`.
* examples: the path tracer, the OBJ reader from the bytes of its files on, both image writers up to
  the byte array, the pixel loops, the progress bar, the renderer's camera, picture and `main`,
  all of scene_primitives, the `main` of scene_mesh and benchmark_blaze.  A program's file names and
  picture size are arguments of the model; the terminal and a failure to write are left out.
* benchmarks: OriginSphere.h and what it uses of OriginMesh.h (`unsigned` wrap-around of its
  counters does not occur below resolution 14).

### Not modelled

* Padding and alignment of vectors (except for the stride in C56), allocation,
  exceptions, threads, destructors (except the freed Embree objects).
* `cull_back_face` (stored, read nowhere), the build time.
* Embree itself, rtcOccluded1 queries (the library never issues them), Embree
  device errors, ray time, masks and flags.
* the tests' own code (but see above), the benchmarks' mains and timing loops, the other formats of stb_image_write.h (BMP, TGA,
  HDR; never called) and the growth of its arrays, the printed text of the progress bar around the bar, timing.

### Assumptions per theorem

<!-- assumptions -->
* **no axioms** ("Closed under the global context"):
  * `PropBuild`: `C01_build_keeps_primitives`, `C01_partition`, `C01_numbered`, `C02_build_is_tree`, `C03_build_statistics`, `C04_build_options`, `C04_few_primitives`, `C06_build_boxes`, `C06_order_ieee`, `C01_case`, `C06_case`, `C06_case_made`
  * `PropDefined`: `C05_zero_bins`, `C05_center_outside`, `C49_denormal_refuted`, `C49_huge_refuted`, `C49_case`
  * `PropTrav`: `C47_stack_is_list`, `C47_careful_calls`, `C47_case`, `C08_traversal_safe_partial`, `C08_traversal_safe_refuted`, `C09_traversal_terminates`, `C09_nodes_once`, `C13_miss_keeps_record`, `C15_scaling_refuted`
  * `PropTri`: `C14_mesh_tolerance_refuted`
  * `PropScene`: `C35_ids_in_order`, `C35_case`, `C36_refused_unchanged`, `C36_refused_history`, `C37_combines`, `C37_ordered_float`, `C37_combines_case`, `C37_two_cylinders_refuted`, `C38_empty_scene_misses`, `C39_commit_again`, `C39_commits`, `C40_used_record_refuted`, `C40_used_record_partial`, `C40_mesh_record_partial`, `C41_committed`, `C41_uncommitted`, `C41_case`
  * `PropCyl`: `C31_interval_ignored`, `C31_min_refuted`, `C31_best_refuted`, `C31_nearest_refuted`
  * `PropBins`: `C07_counts`, `C07_boxes`
  * `PropSign`: `C48_bits32`, `C48_bits64`
  * `PropEmbree`: `C42_sphere_verdict`, `C42_sphere_bounds`, `C43_sphere_occlusion_refuted`, `C44_plane_occlusion`, `C44_float_comparisons`, `C44_plane_occlusion_case`, `C44_smallest_extent_refuted`, `C45_cylinder_occlusion_beyond_partial`, `C45_cylinder_occlusion_beyond_case`, `C45_cylinder_occlusion_refuted`, `C45_hits_occluded_refuted`, `C46_geom_id_refuted`, `C46_geom_id_never_written`, `C46_other_fields_partial`, `C55_double_scene`, `C55_double_scene_case`, `C50_plane_bounds`, `C51_cylinder_bounds`, `C52_float_scene`, `C52_float_scene_once_case`, `C52_float_scene_twice_case`, `C53_empty_collection`, `C54_cylinder_order_refuted`, `C56_mesh_stride_short`, `C56_mesh_stride_refuted`
  * `PropPath`: `C58_sgn_nan`, `C64_make_light`, `C64_make_light_defined`, `C65_shadow_refuted`, `C69_bounce_case`, `C69_normals_refuted`
  * `PropIEEE`: `C71_routines`
  * `PropImage`: `C67_image_stores`, `C67_order_free`, `C67_loops`, `C67_pixel_image`, `C67_size_refuted`, `C67_case`, `C68_ppm_nan_refuted`, `C68_case`, `C68_ppm_case`, `C74_case`
  * `PropObj`: `C66_obj_geometry`, `C66_obj_plain`, `C66_one_corner_refuted`, `C66_case`, `C66_triangles_case`, `C72_obj_materials`, `C72_known_material`, `C72_unknown_material_refuted`, `C72_lights_defined`, `C72_case`, `C72_repeated_name_case`, `C73_obj_texture`, `C73_mixed_refuted`, `C73_per_face_refuted`, `C73_case`
  * `PropText`: `C77_exponent_undefined`, `C77_exponent_case`, `C78_line_total`, `C78_material_line_total`, `C78_nameless_undefined`, `C78_index_undefined`, `C78_index_case`, `C79_lines`, `C79_lines_total`, `C79_long_line_refuted`, `C79_open_library_refuted`
  * `PropTextF`: `C81_integer_case`, `C81_nearest_case`
  * `PropPic`: `C86_case`
  * `PropOrigin`: `C92_defined`, `C92_defined_case`, `C92_counts`, `C92_counts_case`, `C92_closed`, `C92_closed_ieee`, `C94_vertices_refuted`
  * `PropPrint`: `C98_sphere`, `C98_plane`, `C98_cylinder`, `C98_embree_sphere`, `C98_triangle`, `C98_numbers`, `C98_sphere_case`, `C98_spheres`, `C98_planes`, `C98_cylinders`, `C98_mesh`, `C98_scene`, `C98_scene_made`, `C98_scene_case`, `C98_empty_case`, `C98_empty_refuted`, `C98_mesh_refuted`, `C98_ray_refuted`, `C98_rayhit_refuted`, `C98_statistics_refuted`, `C98_node_refuted`, `C98_bvh_refuted`, `C98_embree_plane_refuted`, `C98_embree_cylinder_refuted`
  * `PropPng`: `C100_zlib`, `C100_zlib_case`, `C100_crc`, `C100_crc_case`, `C100_png`, `C100_save`, `C100_case`, `C100_wide_refuted`
  * `PropDistF`: `C107_embree_sphere_same`
* **sig_forall_dec**:
  * `PropTri`: `C26_case`
* **sig_forall_dec, functional_extensionality_dep**:
  * `PropTrav`: `C14_answers_agree`
  * `PropSphere`: `C17_case`
  * `PropPlane`: `C21_case`, `C22_case`
  * `PropCyl`: `C32_case`, `C34_distance_nan_refuted`
  * `PropBins`: `C07_case_hull`, `C07_case_cost`
  * `PropEmbree`: `C45_cylinder_occlusion_case`, `C45_cylinder_occlusion_past_case`, `C45_cylinder_occlusion_inside_case`
  * `PropPath`: `C57_intersection_encloses`, `C57_intersection_encloses_case`, `C57_intersection_refuted`, `C63_shares`, `C63_shares_case`
  * `PropIEEE`: `C49_moderate_case`
  * `PropCamera`: `C75_in_view`, `C75_pixels_distinct`, `C75_pinhole_distinct`, `C75_case`, `C75_middle_case`
  * `PropText`: `C77_case`, `C77_functions_case`, `C78_case`, `C79_case`, `C80_mesh_case`
  * `PropTextF`: `C81_number_case`
  * `PropMeshF`: `C85_grid`, `C85_grid_case`
  * `PropOrigin`: `C95_near_case`
  * `PropMain`: `C96_renderer_degenerate_refuted`
  * `PropTracer`: `C99_bare_refuted`
* **sig_forall_dec, sig_not_dec, functional_extensionality_dep**:
  * `PropBuild`: `C06_order_exact`
  * `PropDefined`: `C05_build_defined`, `C05_case`
  * `PropTrav`: `C10_node_test_partial`, `C10_short_direction_refuted`, `C10_long_direction_refuted`, `C10_negative_zero_refuted`, `C10_face_origin_refuted`, `C11_nearest_hit`, `C11_spheres`, `C11_case`, `C12_spheres_any_hit`, `C14_spheres`, `C15_scaling_partial`
  * `PropSphere`: `C16_sphere_exact`, `C16_case`, `C17_sphere_normal`, `C18_sphere_box`, `C19_sphere_distance`
  * `PropPlane`: `C20_plane_exact`, `C20_case`, `C21_plane_normal`, `C22_plane_box`, `C22_plane_box_exact`, `C23_plane_distance_partial`, `C23_plane_distance_refuted`, `C11_planes`, `C11_planes_case`, `C14_planes`
  * `PropTri`: `C24_triangle_exact`, `C24_triangle_complete`, `C24_triangle_zero`, `C24_case`, `C25_triangle_uv`, `C26_triangle_box`, `C26_mesh_built`, `C27_mesh_normals`, `C27_hit_normal`, `C27_flat_mesh`, `C27_face_normal_unit`, `C27_case`, `C28_closest_point`, `C28_case`, `C29_triangle_distance_refuted`, `C29_triangle_distance_partial`, `C11_mesh`, `C11_mesh_wide`, `C11_mesh_wide_case`, `C11_mesh_exact`, `C11_mesh_built`, `C11_mesh_case`, `C14_mesh`
  * `PropScene`: `C37_ordered_real`, `C37_scene_nearest_partial`, `C37_nearest_case`, `C37_scene_hit_partial`, `C37_hit_case`, `C37_scene_exact_partial`, `C37_scene_defined`, `C37_case`
  * `PropCyl`: `C30_cylinder_first_partial`, `C30_beside_cap_misses`, `C30_cylinder_first_refuted`, `C30_case`, `C31_one_cylinder_partial`, `C31_case`, `C31_many_cylinders_partial`, `C31_reported_genuine_partial`, `C32_cylinder_box_exact`, `C32_cylinder_box_partial`, `C32_cylinder_box_refuted`, `C33_cylinder_normal_partial`, `C33_cylinder_normal_refuted`, `C34_distance_attained_partial`, `C34_distance_exact_partial`, `C34_case`, `C34_distance_refuted`
  * `PropBins`: `C07_bins_exact`, `C07_split_least`, `C07_case`, `C07_cut_position_refuted`
  * `PropEmbree`: `C42_sphere_agrees`, `C42_sphere_agrees_case`, `C43_sphere_occlusion_partial`, `C43_occluded_hits_partial`, `C44_plane_occlusion_exact`, `C45_cylinder_occlusion_partial`, `C45_cylinder_occlusion_past_partial`, `C45_cylinder_occlusion_inside_partial`, `C45_hits_occluded_partial`, `C50_plane_agrees`, `C50_plane_agrees_case`, `C51_cylinder_agrees`, `C51_cylinder_agrees_case`, `C54_embree_nearest`, `C54_embree_nearest_case`
  * `PropPath`: `C58_sgn`, `C58_sgn_inf`, `C58_sgn_case`, `C59_onb`, `C59_onb_case`, `C60_cos_theta`, `C60_cos_theta_case`, `C61_reflect`, `C61_reflect_case`, `C62_refract`, `C62_refract_case`, `C62_refract_total_case`, `C62_index_ratio`, `C62_index_ratio_refuted`, `C63_choice`, `C63_choice_case`, `C63_normals`, `C63_reflectance`, `C63_dissolve_one`, `C63_dissolve_zero`, `C63_opaque_refuted`, `C64_make_light_case`, `C64_sample`, `C64_sample_case`, `C64_sampled_on`, `C64_sampled_all`, `C64_sampled_even`, `C64_sample_empty`, `C64_no_lights_refuted`, `C65_shadow_unit`, `C65_shadow_unit_case`, `C65_shadow_partial`, `C69_pixel`, `C69_pixel_case`, `C69_bounce`
  * `PropObj`: `C70_plain_file`, `C70_scaled_file`, `C70_case`
  * `PropCamera`: `C75_camera_rays`, `C75_frame_unique`, `C75_vertical_nan`, `C75_pinhole`, `C75_frame_case`, `C76_render_mesh`, `C76_render_file`, `C76_level_case`, `C76_case`
  * `PropText`: `C77_number_value`, `C77_number_in_line`, `C77_point_first_refuted`, `C78_line`, `C78_material_line`, `C79_file`, `C80_plain_text`, `C80_mesh_text`, `C80_case`
  * `PropOrigin`: `C92_closed_exact`, `C93_finite`, `C93_case`, `C93_shape`, `C93_round`, `C94_center`, `C94_center_case`
  * `PropMain`: `C96_renderer_text`, `C96_renderer_nothing`, `C96_case`, `C96_missing_case`, `C97_plain_programs`, `C97_plain_nothing`, `C97_case`
  * `PropTracer`: `C99_no_material`, `C99_refused`, `C99_unlit_refuted`
* **sig_forall_dec, sig_not_dec, classic, functional_extensionality_dep**:
  * `PropSign`: `C48_sign32`, `C48_sign64`, `C48_real32`, `C48_real64`, `C48_model32`, `C48_model64`, `C48_case`
  * `PropIEEE`: `C10_ieee_partial`, `C10_rounding_refuted`, `C10_ieee_case`, `C49_moderate_partial`, `C71_query`, `C71_case`
  * `PropImage`: `C68_png_bytes`, `C68_ppm_bytes`, `C68_byte_monotone`, `C68_byte_black`, `C68_byte_full`, `C68_byte_near`, `C74_progress_bar`
  * `PropTextF`: `C81_double`, `C81_float`, `C81_vertex`, `C81_integer`, `C81_integer_float`, `C81_nearest_refuted`, `C81_functions_case`
  * `PropTriF`: `C82_triangle_sound`, `C82_triangle_distance`, `C82_triangle_complete`, `C82_case`, `C83_direction`, `C83_case`, `C84_mesh_query`, `C84_case`, `C84_crack_refuted`
  * `PropMeshF`: `C85_center`, `C85_center_case`, `C85_built`, `C85_answer`, `C85_case`, `C85_thin_refuted`
  * `PropPic`: `C86_scene_picture_partial`, `C86_primitives_partial`, `C86_primitives_refuted`
  * `PropSphF`: `C87_accepted`, `C87_crossed`, `C87_case`, `C87_margin_refuted`, `C88_query`, `C88_query_case`, `C88_answer`, `C88_answer_case`
  * `PropPlaneF`: `C89_accepted`, `C89_pierced`, `C89_case`, `C89_margin_refuted`, `C90_query`, `C90_query_case`, `C90_answer`, `C90_answer_case`
  * `PropSceneF`: `C91_query`, `C91_answer`, `C91_case`, `C91_cylinder`, `C91_cylinder_case`
  * `PropOrigin`: `C95_near`
  * `PropTracer`: `C99_tracer_text`, `C99_case`
  * `PropPng`: `C100_tracer_file`, `C86_primitives_file_partial`
  * `PropTubeF`: `C101_from_outside`, `C101_not_missed`, `C101_outside_case`, `C101_from_inside`, `C101_inside_case`, `C101_rim_refuted`
  * `PropTubeQ`: `C102_query`, `C102_query_case`, `C102_answer`, `C102_answer_case`, `C102_nearest_refuted`
  * `PropTubeN`: `C103_from_outside`, `C103_side_case`, `C103_cap_case`, `C103_from_inside`, `C103_inside_refuted`
  * `PropMeshN`: `C104_mesh`, `C104_mesh_case`, `C104_query`, `C104_query_case`
  * `PropEmbF`: `C105_sphere`, `C105_occlusion`, `C105_sphere_case`, `C105_plane`, `C105_plane_case`, `C106_embree_nearest`, `C106_embree_nearest_case`
  * `PropDistF`: `C107_sphere`, `C107_embree_sphere`, `C107_sphere_case`, `C107_plane_partial`, `C107_plane_case`, `C107_embree_plane_refuted`
  * `PropECylF`: `C108_from_outside`, `C108_not_missed`, `C108_outside_case`, `C108_from_inside`, `C108_inside_case`
  * `PropECylO`: `C109_from_inside`, `C109_inside_case`, `C109_hits_marked`, `C109_not_missed`, `C109_beyond_caps`, `C109_outside_case`
  * `PropESceneC`: `C110_from_outside`, `C110_not_missed`, `C110_outside_case`, `C110_bounds`, `C110_found`, `C110_found_case`, `C110_from_inside`, `C110_inside_case`, `C110_interval_refuted`
<!-- end -->
