{
 "claims": [
  {
   "property": "C01",
   "status": "proved",
   "theorems": [
    "C01_build_keeps_primitives",
    "C01_partition",
    "C01_numbered"
   ],
   "note": "Every arithmetic, collection, option and std::partition; for each build that reaches its end without undefined behaviour."
  },
  {
   "property": "C02",
   "status": "proved",
   "theorems": [
    "C02_build_is_tree"
   ],
   "note": "As C01."
  },
  {
   "property": "C03",
   "status": "proved",
   "theorems": [
    "C03_build_statistics"
   ],
   "note": "As C01. Build time and bad splits are not claimed."
  },
  {
   "property": "C04",
   "status": "proved",
   "theorems": [
    "C04_build_options",
    "C04_few_primitives"
   ],
   "note": "As C01."
  },
  {
   "property": "C05",
   "status": "proved",
   "theorems": [
    "C05_build_defined",
    "C05_zero_bins",
    "C05_center_outside"
   ],
   "note": "Exact arithmetic; boxes within the scalar range, centers in their boxes, 1 <= bin_size, 3*bin_size < 2^32. bin_size 0 is undefined in any arithmetic; a center outside its box is undefined (binary64 witness)."
  },
  {
   "property": "C06",
   "status": "proved",
   "theorems": [
    "C06_build_boxes",
    "C06_order_exact",
    "C06_order_ieee"
   ],
   "note": "Every arithmetic whose comparison is a strict weak order on the box coordinates; shown for exact arithmetic and each IEEE format without NaN."
  },
  {
   "property": "C07",
   "status": "proved",
   "theorems": [
    "C07_counts",
    "C07_boxes",
    "C07_bins_exact",
    "C07_split_least",
    "C07_cut_position_refuted"
   ],
   "note": "Counts and enclosing boxes in any arithmetic; nearest bin, least boxes and the least-cost boundary and axis in exact arithmetic, for costs below the largest number. C07_cut_position_refuted: the coordinate reported for the boundary is not where the bins meet, so the split made there need not be the cheapest."
  },
  {
   "property": "C08",
   "status": "partial",
   "theorems": [
    "C08_traversal_safe_partial",
    "C08_traversal_safe_refuted"
   ],
   "note": "Proved for trees of depth <= 26, any arithmetic: max_tree_depth <= 26, or at most 26 + min_leaf_primitives primitives (30 with the default options). Refuted for the default options: binary64, 31 spheres, depth 27 overflows the stack array."
  },
  {
   "property": "C09",
   "status": "proved",
   "theorems": [
    "C09_traversal_terminates",
    "C09_nodes_once"
   ],
   "note": "Any arithmetic. The loop ends within one iteration per node, or stops at the stack overflow of C08."
  },
  {
   "property": "C10",
   "status": "partial",
   "theorems": [
    "C10_node_test_partial",
    "C10_short_direction_refuted",
    "C10_long_direction_refuted",
    "C10_negative_zero_refuted",
    "C10_face_origin_refuted",
    "C10_ieee_partial",
    "C10_rounding_refuted"
   ],
   "note": "Proved for directions of length 1 (or longer with min_hit_distance 0) without negative zeros whose origin is not in a horizontal face plane of the box when the ray is horizontal. Each of the four exclusions is shown necessary by a refutation. In IEEE arithmetic proved for inputs without overflow or underflow and with a margin of four units of roundoff at the far end; the margin is needed (refuted without it in binary64)."
  },
  {
   "property": "C11",
   "status": "proved",
   "theorems": [
    "C11_nearest_hit",
    "C11_spheres",
    "C11_planes",
    "C11_mesh",
    "C11_mesh_exact",
    "C11_mesh_built",
    "C11_mesh_wide"
   ],
   "note": "Any primitive kind meeting the contract; spheres and planes without further assumption; exact arithmetic, admissible rays (see C10), tree depth <= 26 (see C08). Meshes: with the tolerance 4*eps no true crossing is missed or overtaken and each reported hit is within the tolerance; with eps = 0 the exact statement."
  },
  {
   "property": "C12",
   "status": "proved",
   "theorems": [
    "C11_nearest_hit",
    "C12_spheres_any_hit",
    "C11_planes",
    "C11_mesh",
    "C11_mesh_exact"
   ],
   "note": "As C11, with AnyHit::yes."
  },
  {
   "property": "C13",
   "status": "proved",
   "theorems": [
    "C13_miss_keeps_record"
   ],
   "note": "Any arithmetic, any node array."
  },
  {
   "property": "C14",
   "status": "proved",
   "theorems": [
    "C14_answers_agree",
    "C14_spheres",
    "C14_planes",
    "C14_mesh",
    "C14_mesh_tolerance_refuted"
   ],
   "note": "Answers with the same set of geometric hits agree; with C11 two builds agree. Instances for spheres and planes. Meshes: proved for zero tolerance; with the tolerance of binary64 the leaf size can decide whether a near miss is reported (C14_mesh_tolerance_refuted)."
  },
  {
   "property": "C15",
   "status": "partial",
   "theorems": [
    "C15_scaling_partial",
    "C15_scaling_refuted",
    "C14_planes",
    "C14_mesh"
   ],
   "note": "Proved for pairs of admissible rays (length >= 1 and min_hit_distance 0) over spheres and planes; refuted for shorter directions (binary64)."
  },
  {
   "property": "C16",
   "status": "proved",
   "theorems": [
    "C16_sphere_exact"
   ],
   "note": "Exact arithmetic."
  },
  {
   "property": "C17",
   "status": "proved",
   "theorems": [
    "C17_sphere_normal"
   ],
   "note": "Exact arithmetic."
  },
  {
   "property": "C18",
   "status": "proved",
   "theorems": [
    "C18_sphere_box"
   ],
   "note": "Exact arithmetic."
  },
  {
   "property": "C19",
   "status": "proved",
   "theorems": [
    "C19_sphere_distance"
   ],
   "note": "Exact arithmetic."
  },
  {
   "property": "C20",
   "status": "proved",
   "theorems": [
    "C20_plane_exact"
   ],
   "note": "Exact arithmetic; all orthogonal matrices, extents > 0, unit directions, min_hit_distance >= 0."
  },
  {
   "property": "C21",
   "status": "proved",
   "theorems": [
    "C21_plane_normal"
   ],
   "note": "Exact arithmetic."
  },
  {
   "property": "C22",
   "status": "proved",
   "theorems": [
    "C22_plane_box",
    "C22_plane_box_exact"
   ],
   "note": "Exact arithmetic, any matrix, extents >= 0; the box is also given exactly."
  },
  {
   "property": "C23",
   "status": "partial",
   "theorems": [
    "C23_plane_distance_partial",
    "C23_plane_distance_refuted"
   ],
   "note": "Proved for patches centered on the z axis. Refuted for others: the routine adds the center's x and y to bounds in local coordinates."
  },
  {
   "property": "C24",
   "status": "proved",
   "theorems": [
    "C24_triangle_exact",
    "C24_triangle_complete",
    "C24_triangle_zero"
   ],
   "note": "Exact arithmetic, any tolerance 4*eps, degenerate triangles included; completeness and the zero-tolerance equivalence as separate theorems."
  },
  {
   "property": "C25",
   "status": "proved",
   "theorems": [
    "C25_triangle_uv",
    "C24_triangle_exact"
   ],
   "note": "Exact arithmetic."
  },
  {
   "property": "C26",
   "status": "proved",
   "theorems": [
    "C26_triangle_box",
    "C26_mesh_built"
   ],
   "note": "Exact arithmetic; for every mesh whose faces index existing vertices."
  },
  {
   "property": "C27",
   "status": "proved",
   "theorems": [
    "C27_mesh_normals",
    "C27_hit_normal",
    "C27_flat_mesh",
    "C27_face_normal_unit"
   ],
   "note": "Exact arithmetic; the hit normal needs a nonzero interpolated normal, which holds on flat meshes."
  },
  {
   "property": "C28",
   "status": "proved",
   "theorems": [
    "C28_closest_point"
   ],
   "note": "Exact arithmetic."
  },
  {
   "property": "C29",
   "status": "partial",
   "theorems": [
    "C29_triangle_distance_refuted",
    "C29_triangle_distance_partial"
   ],
   "note": "Refuted as stated: the routine rebuilds wrong vertices and returns a point instead of a distance. Partial: triangles whose second vertex is the origin get the nearest point."
  },
  {
   "property": "C30",
   "status": "partial",
   "theorems": [
    "C30_cylinder_first_partial",
    "C30_beside_cap_misses",
    "C30_cylinder_first_refuted"
   ],
   "note": "Exact real arithmetic with infinities and NaN: a reported hit is the first surface point ahead; a miss means nothing is ahead but touching points, unless the ray starts in a cap's plane beside the cap, where every ray misses (refuted there)."
  },
  {
   "property": "C31",
   "status": "partial",
   "theorems": [
    "C31_interval_ignored",
    "C31_min_refuted",
    "C31_best_refuted",
    "C31_nearest_refuted",
    "C31_one_cylinder_partial",
    "C31_many_cylinders_partial",
    "C31_reported_genuine_partial"
   ],
   "note": "False as stated: the interval and the best hit are ignored (any arithmetic), witnesses in binary64. Queries proved right when the ray meets at most one cylinder that can be seen (those beside whose cap the ray starts never are, C30). With any number of cylinders first met before max_hit_distance, the flag is right and the record is that of a first point, though not of the nearest. With any rotations and distances a reported hit is a first point within the interval."
  },
  {
   "property": "C32",
   "status": "partial",
   "theorems": [
    "C32_cylinder_box_exact",
    "C32_cylinder_box_partial",
    "C32_cylinder_box_refuted"
   ],
   "note": "The box is exact as stated and encloses the cylinder iff the rotation maps axes to axes; refuted for tilted cylinders."
  },
  {
   "property": "C33",
   "status": "partial",
   "theorems": [
    "C33_cylinder_normal_partial",
    "C33_cylinder_normal_refuted"
   ],
   "note": "Right except for lateral hits from inside along rays not parallel to the caps, where the normal is in local coordinates (refuted)."
  },
  {
   "property": "C34",
   "status": "partial",
   "theorems": [
    "C34_distance_attained_partial",
    "C34_distance_exact_partial",
    "C34_distance_refuted",
    "C34_distance_nan_refuted"
   ],
   "note": "Result is NaN or a distance to a surface point; least distance if the Newton iteration finds the nearest ellipse point; refuted in binary64 (wrong vertex, NaN)."
  },
  {
   "property": "C35",
   "status": "proved",
   "theorems": [
    "C35_ids_in_order"
   ],
   "note": "For every history of adds, commits, option changes and queries on a new scene, in any arithmetic."
  },
  {
   "property": "C36",
   "status": "proved",
   "theorems": [
    "C36_refused_unchanged",
    "C36_refused_history"
   ],
   "note": "State equality after a refused add, and equality of every continuation with and without it."
  },
  {
   "property": "C37",
   "status": "partial",
   "theorems": [
    "C37_combines",
    "C37_ordered_float",
    "C37_ordered_real",
    "C37_scene_nearest_partial",
    "C37_scene_hit_partial",
    "C37_scene_exact_partial",
    "C37_scene_defined",
    "C37_two_cylinders_refuted"
   ],
   "note": "In any ordered arithmetic (IEEE and exact), for scenes mixing all four kinds reached by any history: the query is true exactly if some geometry's own query is, and holds the record of one with the least distance with the id its add call returned (C37_combines). Over the reals that is the nearest hit over all primitives for meshes, spheres, planes, and for cylinders if the ray meets at most one and the conditions of C31_one_cylinder_partial hold; with tolerance 4 eps for triangles in general, exact for eps = 0. With any number of cylinders, first met before max_hit_distance, the flag and the record's consistency are right (C37_scene_hit_partial). Missing: the nearest hit for rays that meet two cylinders, for which it is false (C37_two_cylinders_refuted)."
  },
  {
   "property": "C38",
   "status": "proved",
   "theorems": [
    "C38_empty_scene_misses"
   ],
   "note": "Any history without accepted add, committed or not."
  },
  {
   "property": "C39",
   "status": "proved",
   "theorems": [
    "C39_commit_again",
    "C39_commits"
   ],
   "note": "Also when the build options change between the commits; later replies are equal too."
  },
  {
   "property": "C40",
   "status": "partial",
   "theorems": [
    "C40_used_record_refuted",
    "C40_used_record_partial",
    "C40_mesh_record_partial"
   ],
   "note": "False of the code: C40_used_record_refuted gives two records with different answers. Proved: only the record's distance matters, and on mesh-only scenes nothing."
  },
  {
   "property": "C41",
   "status": "proved",
   "theorems": [
    "C41_committed",
    "C41_uncommitted"
   ],
   "note": "Both halves over all histories."
  },
  {
   "property": "C42",
   "status": "proved",
   "theorems": [
    "C42_sphere_verdict",
    "C42_sphere_bounds",
    "C42_sphere_agrees"
   ],
   "note": "Verdict and box in every arithmetic; distance, uv and normal in exact arithmetic for unit directions and tnear >= 0."
  },
  {
   "property": "C43",
   "status": "partial",
   "theorems": [
    "C43_sphere_occlusion_partial",
    "C43_occluded_hits_partial",
    "C43_sphere_occlusion_refuted"
   ],
   "note": "False as stated: from inside the sphere the occlusion callback misses the exit point (counterexample in binary32). Proved in exact arithmetic if the point at tnear lies strictly outside the sphere; from anywhere a marked ray has a hit."
  },
  {
   "property": "C44",
   "status": "proved",
   "theorems": [
    "C44_plane_occlusion",
    "C44_float_comparisons",
    "C44_plane_occlusion_exact",
    "C44_smallest_extent_refuted"
   ],
   "note": "For all positive extents in exact arithmetic, and in every arithmetic with ordinary comparisons (all binary floating-point formats) if half of each extent is positive. In binary32 half of the smallest positive number is 0, and there the claim fails (C44_smallest_extent_refuted)."
  },
  {
   "property": "C45",
   "status": "partial",
   "theorems": [
    "C45_cylinder_occlusion_beyond_partial",
    "C45_cylinder_occlusion_partial",
    "C45_cylinder_occlusion_past_partial",
    "C45_cylinder_occlusion_inside_partial",
    "C45_hits_occluded_partial",
    "C45_cylinder_occlusion_refuted",
    "C45_hits_occluded_refuted"
   ],
   "note": "False as stated: rays passing above or below are marked, and a ray leaving from a cap is hit without being marked (both in binary32). Proved from beyond the caps (every arithmetic), from inside, and from beside if the ray meets the infinite cylinder only within the finite one; off the surface every hit is marked."
  },
  {
   "property": "C46",
   "status": "partial",
   "theorems": [
    "C46_geom_id_refuted",
    "C46_geom_id_never_written",
    "C46_other_fields_partial",
    "C55_double_scene"
   ],
   "note": "False with float: no query ever writes geom_id (for all scenes, rays and Embree results). The other fields are copied. With double the replies are those of BlazertScene."
  },
  {
   "property": "C47",
   "status": "proved",
   "theorems": [
    "C47_stack_is_list",
    "C47_careful_calls"
   ],
   "note": "Exact characterisation: a stack of capacity cap behaves like a list; popping a full stack is out of bounds."
  },
  {
   "property": "C48",
   "status": "proved",
   "theorems": [
    "C48_bits32",
    "C48_bits64",
    "C48_sign32",
    "C48_sign64",
    "C48_real32",
    "C48_real64",
    "C48_model32",
    "C48_model64"
   ],
   "note": "For all bit patterns and for all IEEE values including NaN first arguments; encoding and decoding are Flocq's."
  },
  {
   "property": "C49",
   "status": "partial",
   "theorems": [
    "C49_denormal_refuted",
    "C49_huge_refuted",
    "C49_moderate_partial"
   ],
   "note": "Refuted as stated by denormal and by huge extents in binary64. Proved in IEEE arithmetic for coordinates below an eighth of the overflow threshold and extents that are zero or normal."
  },
  {
   "property": "C50",
   "status": "proved",
   "theorems": [
    "C50_plane_agrees",
    "C50_plane_bounds"
   ],
   "note": "Exact arithmetic; the boxes in every arithmetic."
  },
  {
   "property": "C51",
   "status": "proved",
   "theorems": [
    "C51_cylinder_agrees",
    "C51_cylinder_bounds"
   ],
   "note": "Exact arithmetic; the boxes in every arithmetic."
  },
  {
   "property": "C52",
   "status": "proved",
   "theorems": [
    "C52_float_scene"
   ],
   "note": "For additions of non-empty collections; a freed user pointer is UB UBprim."
  },
  {
   "property": "C53",
   "status": "proved",
   "theorems": [
    "C52_float_scene",
    "C53_empty_collection"
   ],
   "note": "Ids and attached primitives are part of C52_float_scene."
  },
  {
   "property": "C54",
   "status": "partial",
   "theorems": [
    "C54_embree_nearest",
    "C54_cylinder_order_refuted"
   ],
   "note": "Proved for meshes, one sphere and one plane in exact arithmetic under a contract for Embree (its own triangle test finds the nearest hit; left-out geometries have bounds the ray does not meet). Refuted with a cylinder in binary32: its callback overwrites a nearer hit, so the order decides."
  },
  {
   "property": "C55",
   "status": "proved",
   "theorems": [
    "C55_double_scene"
   ],
   "note": "Every arithmetic, every std::partition that meets its contract."
  },
  {
   "property": "C56",
   "status": "partial",
   "theorems": [
    "C56_mesh_stride_short",
    "C56_mesh_stride_refuted"
   ],
   "note": "False for every element size: sizeof / 8 * 4 is smaller than sizeof."
  },
  {
   "property": "C57",
   "status": "proved",
   "theorems": [
    "C57_intersection_encloses",
    "C57_intersection_refuted"
   ],
   "note": "The function returns the enclosing box (hull); the name suggests otherwise, and C57_intersection_refuted shows it is not the common part. blaze::min and blaze::max are taken to work per coordinate and to be exact on finite numbers."
  },
  {
   "property": "C58",
   "status": "proved",
   "theorems": [
    "C58_sgn",
    "C58_sgn_nan",
    "C58_sgn_inf"
   ],
   "note": ""
  },
  {
   "property": "C59",
   "status": "proved",
   "theorems": [
    "C59_onb"
   ],
   "note": "Exact arithmetic with special values."
  },
  {
   "property": "C60",
   "status": "proved",
   "theorems": [
    "C60_cos_theta"
   ],
   "note": "Exact arithmetic; cos and sin are arguments assumed exact."
  },
  {
   "property": "C61",
   "status": "proved",
   "theorems": [
    "C61_reflect"
   ],
   "note": "Exact arithmetic."
  },
  {
   "property": "C62",
   "status": "proved",
   "theorems": [
    "C62_refract",
    "C62_index_ratio",
    "C62_index_ratio_refuted"
   ],
   "note": "refract itself is correct; the ratio passed to it is reversed, shown by C62_index_ratio and C62_index_ratio_refuted."
  },
  {
   "property": "C63",
   "status": "proved",
   "theorems": [
    "C63_choice",
    "C63_shares",
    "C63_normals",
    "C63_reflectance",
    "C63_dissolve_one",
    "C63_dissolve_zero",
    "C63_opaque_refuted"
   ],
   "note": "The meaning of dissolve is reversed, shown by C63_dissolve_one, C63_dissolve_zero and C63_opaque_refuted."
  },
  {
   "property": "C64",
   "status": "proved",
   "theorems": [
    "C64_make_light",
    "C64_make_light_defined",
    "C64_sample",
    "C64_sampled_on",
    "C64_sampled_all",
    "C64_sampled_even",
    "C64_sample_empty",
    "C64_no_lights_refuted"
   ],
   "note": "Exact arithmetic; floor and its conversion are an argument. Evenness is stated for the parts of the face cut off by a line through one corner and a parallel to a side, which generate all parts."
  },
  {
   "property": "C65",
   "status": "partial",
   "theorems": [
    "C65_shadow_unit",
    "C65_shadow_partial",
    "C65_shadow_refuted"
   ],
   "note": "Exact at distance 1. At distance 1 or more crossings within 1/100000 of the distance may be missed and rounding tolerance is allowed for. Below distance 1 it is false: the answer depends on the direction."
  },
  {
   "property": "C66",
   "status": "proved",
   "theorems": [
    "C66_obj_geometry",
    "C66_obj_plain",
    "C66_one_corner_refuted"
   ],
   "note": "Files are given as parsed lines; splitting lines into tokens and numbers is not modelled. A polygon with one corner is undefined behaviour (C66_one_corner_refuted)."
  },
  {
   "property": "C67",
   "status": "proved",
   "theorems": [
    "C67_image_stores",
    "C67_order_free",
    "C67_loops",
    "C67_pixel_image",
    "C67_size_refuted"
   ],
   "note": "Stated for 3*width*height below 2^32 (2^64 for the renderer); C67_size_refuted shows the store leaves the array for 65536x65536."
  },
  {
   "property": "C68",
   "status": "proved",
   "theorems": [
    "C68_png_bytes",
    "C68_ppm_bytes",
    "C68_ppm_nan_refuted",
    "C68_byte_monotone",
    "C68_byte_black",
    "C68_byte_full",
    "C68_byte_near"
   ],
   "note": "IEEE semantics from Flocq. The stb writer and the PPM header are not modelled. For NaN the PPM conversion is undefined (C68_ppm_nan_refuted)."
  },
  {
   "property": "C69",
   "status": "proved",
   "theorems": [
    "C69_pixel",
    "C69_bounce",
    "C69_normals_refuted"
   ],
   "note": "Exact arithmetic. The hypothesis on normals is needed: C69_normals_refuted."
  },
  {
   "property": "C70",
   "status": "proved",
   "theorems": [
    "C70_plain_file",
    "C70_scaled_file"
   ],
   "note": "Idealised arithmetic (extended reals with the overflow bound as a parameter) and trees of depth at most 26, as for the mesh queries."
  },
  {
   "property": "C71",
   "status": "proved",
   "theorems": [
    "C71_query",
    "C71_routines"
   ],
   "note": "IEEE arithmetic of any precision >= 6; exact ray along the direction as given (not normalised)."
  },
  {
   "property": "C72",
   "status": "proved",
   "theorems": [
    "C72_obj_materials",
    "C72_known_material",
    "C72_unknown_material_refuted",
    "C72_lights_defined"
   ],
   "note": "Faces without a material in force get 4294967295, which the list of lights reads outside the materials (C72_unknown_material_refuted)."
  },
  {
   "property": "C73",
   "status": "proved",
   "theorems": [
    "C73_obj_texture",
    "C73_mixed_refuted",
    "C73_per_face_refuted"
   ],
   "note": "For shapes that are wholly textured or not at all; a mixed shape is undefined (C73_mixed_refuted)."
  },
  {
   "property": "C74",
   "status": "proved",
   "theorems": [
    "C74_progress_bar"
   ],
   "note": "The count is computed in binary32; widths up to 2^24-1."
  },
  {
   "property": "C75",
   "status": "proved",
   "theorems": [
    "C75_camera_rays",
    "C75_frame_unique",
    "C75_in_view",
    "C75_pixels_distinct",
    "C75_vertical_nan",
    "C75_pinhole",
    "C75_pinhole_distinct"
   ],
   "note": "Exact arithmetic; tan and the degree constant are arguments."
  },
  {
   "property": "C76",
   "status": "proved",
   "theorems": [
    "C76_render_mesh",
    "C76_render_file"
   ],
   "note": "Exact arithmetic and trees of depth at most 26. Crossings are counted up to the tolerance of the determinant test; the colour is stated for non-degenerate faces whose interpolated normal does not vanish."
  },
  {
   "property": "C77",
   "status": "proved",
   "theorems": [
    "C77_number_value",
    "C77_number_in_line",
    "C77_point_first_refuted",
    "C77_exponent_undefined"
   ],
   "note": "Exact arithmetic, with exact pow, ldexp and conversion to float; false for numbers starting with a point, undefined for exponents beyond int."
  },
  {
   "property": "C78",
   "status": "proved",
   "theorems": [
    "C78_line",
    "C78_material_line",
    "C78_line_total",
    "C78_material_line_total",
    "C78_nameless_undefined",
    "C78_index_undefined"
   ],
   "note": "Exact arithmetic for the values; the totality theorems hold in any arithmetic. Undefined lines are shown."
  },
  {
   "property": "C79",
   "status": "proved",
   "theorems": [
    "C79_file",
    "C79_lines",
    "C79_lines_total",
    "C79_long_line_refuted",
    "C79_open_library_refuted"
   ],
   "note": "Refinement of the loaders on text to the loaders on commands; long lines and open material files refuted."
  },
  {
   "property": "C80",
   "status": "proved",
   "theorems": [
    "C80_plain_text",
    "C80_mesh_text"
   ],
   "note": "Composition of C79 with C70 and C72; exact arithmetic, trees of depth at most 26."
  },
  {
   "property": "C81",
   "status": "proved",
   "theorems": [
    "C81_double",
    "C81_float",
    "C81_vertex",
    "C81_integer",
    "C81_integer_float",
    "C81_nearest_refuted"
   ],
   "note": "IEEE double reader, float result kept as a double; pow, ldexp and the conversion are arguments with stated accuracy"
  },
  {
   "property": "C82",
   "status": "proved",
   "theorems": [
    "C82_triangle_sound",
    "C82_triangle_distance",
    "C82_triangle_complete"
   ],
   "note": "Every IEEE format of 20 or more digits; coordinates up to M, far from overflow; explicit error terms."
  },
  {
   "property": "C83",
   "status": "proved",
   "theorems": [
    "C83_direction"
   ],
   "note": "Lengths between 4096u and 1/u."
  },
  {
   "property": "C84",
   "status": "proved",
   "theorems": [
    "C84_mesh_query",
    "C84_crack_refuted"
   ],
   "note": "Meshes and rays of moderate size (mesh_ray), faces not seen almost edge-on; the margin is needed: C84_crack_refuted."
  },
  {
   "property": "C85",
   "status": "proved",
   "theorems": [
    "C85_center",
    "C85_built",
    "C85_grid",
    "C85_answer",
    "C85_thin_refuted"
   ],
   "note": "extents below the bound: refuted, the code converts a negative bin number to unsigned"
  },
  {
   "property": "C86",
   "status": "partial",
   "theorems": [
    "C86_scene_picture_partial",
    "C86_primitives_partial",
    "C86_primitives_file_partial",
    "C86_primitives_refuted"
   ],
   "note": "Over the reals: the bytes of the picture of any scene under the conditions of C37_scene_nearest_partial, and of the example's scene for every size: three of its four solids, nearest first. The fourth (cylinder 2) is not drawn: refuted in binary64 by the pixel whose line of sight goes through its center. Missing: rounding of the queries in the picture (single queries: C91), scenes with several cylinders on a line of sight."
  },
  {
   "property": "C87",
   "status": "proved",
   "theorems": [
    "C87_accepted",
    "C87_crossed",
    "C87_margin_refuted"
   ],
   "note": "The margin is in units of the power of a point; the refutation shows that it matters."
  },
  {
   "property": "C88",
   "status": "proved",
   "theorems": [
    "C88_query",
    "C88_answer"
   ],
   "note": "tmax is infinite or at least 4 M; the origin is at most M from every center; directions shorter than 1-4u are excluded (C15)."
  },
  {
   "property": "C89",
   "status": "proved",
   "theorems": [
    "C89_accepted",
    "C89_pierced",
    "C89_margin_refuted"
   ],
   "note": "Up to 256 u M, divided by the sine of the angle between ray and plane for the margin. C89_margin_refuted: a margin is needed. Matrices need not be exact rotations: four units of roundoff per entry are allowed."
  },
  {
   "property": "C90",
   "status": "proved",
   "theorems": [
    "C90_query",
    "C90_answer"
   ],
   "note": "For rays with an unnormalized direction of length between 1 - 4u and 1/u, as C85 and C88."
  },
  {
   "property": "C91",
   "status": "proved",
   "theorems": [
    "C91_query",
    "C91_answer",
    "C91_cylinder"
   ],
   "note": "Scenes of a mesh, spheres, patches and cylinders, as many as the scene can hold, in any order, with refused calls and repeated commits; the conditions on the ray are those of C84, C88, C90 and C102. With several cylinders the reported one need not be the nearest of them (C102_nearest_refuted)."
  },
  {
   "property": "C92",
   "status": "proved",
   "theorems": [
    "C92_defined",
    "C92_counts",
    "C92_closed",
    "C92_closed_exact",
    "C92_closed_ieee"
   ],
   "note": "Any arithmetic; absence of a border needs commutative addition, shown for the exact numbers and for IEEE numbers."
  },
  {
   "property": "C93",
   "status": "proved",
   "theorems": [
    "C93_finite",
    "C93_shape",
    "C93_round"
   ],
   "note": "Exact arithmetic."
  },
  {
   "property": "C94",
   "status": "proved",
   "theorems": [
    "C94_center",
    "C94_vertices_refuted"
   ],
   "note": "Exact arithmetic with epsilon 0; the miss is a computation in binary32."
  },
  {
   "property": "C95",
   "status": "proved",
   "theorems": [
    "C95_near"
   ],
   "note": "Every binary format of enough digits, for a golden ratio between 1.6 and 1.65, which the code's is."
  },
  {
   "property": "C96",
   "status": "proved",
   "theorems": [
    "C96_renderer_text",
    "C96_renderer_nothing",
    "C96_renderer_degenerate_refuted"
   ],
   "note": "Whole program in exact arithmetic; file names, sizes, tan, pow, ldexp are arguments. Without the condition on normals it is undefined: a text with a degenerate face is the witness."
  },
  {
   "property": "C97",
   "status": "proved",
   "theorems": [
    "C97_plain_programs",
    "C97_plain_nothing"
   ],
   "note": "Whole programs in exact arithmetic; the answers themselves are those of C80."
  },
  {
   "property": "C98",
   "status": "proved",
   "theorems": [
    "C98_sphere",
    "C98_plane",
    "C98_cylinder",
    "C98_embree_sphere",
    "C98_triangle",
    "C98_numbers",
    "C98_spheres",
    "C98_planes",
    "C98_cylinders",
    "C98_mesh",
    "C98_scene",
    "C98_scene_made",
    "C98_empty_refuted",
    "C98_mesh_refuted",
    "C98_ray_refuted",
    "C98_rayhit_refuted",
    "C98_statistics_refuted",
    "C98_node_refuted",
    "C98_bvh_refuted",
    "C98_embree_plane_refuted",
    "C98_embree_cylinder_refuted"
   ],
   "note": "the printed text is modelled as the list of stream arguments; number formatting and addresses are arguments assumed to be words; JSON numbers are taken loosely as words"
  },
  {
   "property": "C99",
   "status": "proved",
   "theorems": [
    "C99_tracer_text",
    "C99_no_material",
    "C99_refused",
    "C99_bare_refuted",
    "C99_unlit_refuted"
   ],
   "note": "Over reals with infinities; the file, the libraries, the picture's size, the order of the pixels and the random numbers are arguments. Conditions: tree depth at most 26 (always so for fewer than 27 triangles; C08 discusses the depth), no degenerate face, normals that do not vanish."
  },
  {
   "property": "C100",
   "status": "proved",
   "theorems": [
    "C100_zlib",
    "C100_crc",
    "C100_png",
    "C100_save",
    "C100_tracer_file",
    "C100_wide_refuted"
   ],
   "note": "The decoder (SpecZlib, SpecPng) is written from the specifications and shares nothing with the writer; the checksum is polynomial division over GF(2). Allocation succeeds and the file is written completely. Rows of 2^24 bytes or more: refuted (C100_wide_refuted). C100_tracer_file composes the writer with C99."
  },
  {
   "property": "C101",
   "status": "proved",
   "theorems": [
    "C101_from_outside",
    "C101_not_missed",
    "C101_from_inside",
    "C101_rim_refuted"
   ],
   "note": "One call of the routine, on a state with the ray's origin and direction; the routine looks at neither the ray's interval nor an earlier hit (C31). Excluded: directions almost, but not exactly, along or across the axis (components below v), origins level with a cap for the completeness part. Near a rim completeness is refuted."
  },
  {
   "property": "C102",
   "status": "proved",
   "theorems": [
    "C102_query",
    "C102_answer",
    "C102_nearest_refuted"
   ],
   "note": "For every binary format; the boxes, the tree and the routine with rounding. The bounds of C101 carry over to the named cylinder. That a closest-hit query names the nearest cylinder is refuted (the routine ignores the interval, C31)."
  },
  {
   "property": "C103",
   "status": "proved",
   "theorems": [
    "C103_from_outside",
    "C103_from_inside",
    "C103_inside_refuted"
   ],
   "note": "From inside, the code forgets to turn the tube's normal: stated exactly by C103_from_inside, with a witness in C103_inside_refuted."
  },
  {
   "property": "C104",
   "status": "proved",
   "theorems": [
    "C104_mesh",
    "C104_query"
   ],
   "note": "Every binary format; faces no needles, valence bounded, mixture not cancelling (the conditions are in the statement). C91 carries the normals over to scenes."
  },
  {
   "property": "C105",
   "status": "proved",
   "theorems": [
    "C105_sphere",
    "C105_occlusion",
    "C105_plane"
   ],
   "note": "For every IEEE format; the plane's occlusion callback is C44."
  },
  {
   "property": "C106",
   "status": "proved",
   "theorems": [
    "C106_embree_nearest"
   ],
   "note": "Embree's triangle test and traversal are oracles; no cylinders (C54_cylinder_order_refuted)."
  },
  {
   "property": "C107",
   "status": "partial",
   "theorems": [
    "C107_sphere",
    "C107_embree_sphere_same",
    "C107_embree_sphere",
    "C107_plane_partial",
    "C107_embree_plane_refuted"
   ],
   "note": "Spheres proved, native and Embree. Native patches proved if centered on the z axis, where the routine is right; for other centers it is false (C23_plane_distance_refuted). Embree's plane is refuted: it returns 0 for every point."
  },
  {
   "property": "C108",
   "status": "proved",
   "theorems": [
    "C108_from_outside",
    "C108_not_missed",
    "C108_from_inside"
   ],
   "note": "Rays that start within the margin of the surface are left open, as in C101. The callback reads neither tnear nor tfar, so nothing is said about them."
  },
  {
   "property": "C109",
   "status": "proved",
   "theorems": [
    "C109_from_inside",
    "C109_hits_marked",
    "C109_not_missed",
    "C109_beyond_caps"
   ],
   "note": "All four claims hold in every binary format, float and double included. The converse fails beside the cylinder: C45_cylinder_occlusion_refuted marks a ray that passes above."
  },
  {
   "property": "C110",
   "status": "proved",
   "theorems": [
    "C110_from_outside",
    "C110_not_missed",
    "C110_bounds",
    "C110_found",
    "C110_from_inside",
    "C110_interval_refuted"
   ],
   "note": "Embree's choice of callbacks is a parameter (any number of runs of the one geometry's callback); C110_found adds the contract of C106 for its traversal, for cylinders whose axes are coordinate axes."
  }
 ]
}
