{"id": "C01", "title": "Build loses and duplicates no primitive", "statement": "After SAHBinnedBuilder::build on a fresh BVH over a collection of n primitives, the primitives stored in the leaves, read over all nodes, are exactly the primitives 0..n-1, each stored once, and each carries the data of that primitive.", "quantifier": "all collections of any size, all floating point contents including NaN and infinities, all build options, all std::partition implementations allowed by the standard", "why_tests_cant": "the split choices depend on floating point data and on the library's partition order; a test exercises finitely many of them", "anchors": ["blazert/bvh/builder.h:build", "blazert/bvh/builder.h:build_recursive", "blazert/bvh/builder.h:create_leaf", "blazert/bvh/builder.h:split"]}
{"id": "C02", "title": "The node array is a binary tree rooted at node 0", "statement": "After build, node 0 is the root; each branch's two children are in range and lie after it in the array; the first child directly follows its parent; each non-root node is the child of exactly one branch; every branch's split axis is 0, 1 or 2; leaves have no children.", "quantifier": "all collections, contents, options and partition implementations", "why_tests_cant": "the array layout is produced by recursion over data-dependent splits", "anchors": ["blazert/bvh/builder.h:build_recursive", "blazert/bvh/builder.h:create_branch", "blazert/bvh/builder.h:split", "blazert/bvh/node.h:BVHNode"]}
{"id": "C03", "title": "Build statistics describe the tree that was built", "statement": "The statistics returned by build are exact: leaf_nodes and branch_nodes count the leaves and branches in the array, max_tree_depth is the depth of the deepest node, max/min_num_prims_per_leaf are the maximum and minimum leaf sizes, and leaf_nodes = branch_nodes + 1.", "quantifier": "all collections, contents, options and partition implementations", "why_tests_cant": "requires agreement between counters and structure for every recursion shape", "anchors": ["blazert/bvh/builder.h:build", "blazert/bvh/statistics.h:BVHBuildStatistics"]}
{"id": "C04", "title": "Build options are respected", "statement": "No node is deeper than max_tree_depth; a leaf above max_tree_depth holds at most min_leaf_primitives primitives; a node holding more than min_leaf_primitives primitives and lying above max_tree_depth is split; if min_leaf_primitives >= 1 and n >= 1 no leaf is empty and there are at most 2n-1 nodes.", "quantifier": "all collections, contents, options and partition implementations", "why_tests_cant": "bounds over unbounded input families", "anchors": ["blazert/bvh/builder.h:build_recursive", "blazert/bvh/builder.h:split", "blazert/bvh/options.h:BVHBuildOptions"]}
{"id": "C05", "title": "Build terminates without undefined behaviour on well-formed collections", "statement": "For bin_size >= 1 and primitives whose centers lie in their boxes, build finishes: every bin index computed from a center is convertible to unsigned and in range, and every array access is in bounds. With bin_size = 0, or with a center outside the node box, the behaviour is undefined.", "quantifier": "all finite collections whose primitive boxes contain their centers, in exact arithmetic, all options with bin_size >= 1", "why_tests_cant": "undefined behaviour need not show up in a test run", "anchors": ["blazert/bvh/binbuffer.h:sort_collection_into_bins", "blazert/bvh/binbuffer.h:find_best_split_binned", "blazert/bvh/builder.h:build"]}
{"id": "C06", "title": "Node boxes enclose everything below them", "statement": "After build, the box of each node encloses the box of every primitive stored in the leaves below it, and the box of each child; and it is the smallest such box.", "quantifier": "all collections with totally ordered (NaN-free) box coordinates, any arithmetic whose comparison is a strict total order on them, all options", "why_tests_cant": "a single uncovered primitive in a single deep node silently loses hits", "anchors": ["blazert/bvh/bbox.h:compute_bounding_box", "blazert/datatypes.h:unity", "blazert/bvh/builder.h:build_recursive"]}
{"id": "C07", "title": "Binning counts every primitive once per axis and the chosen bin minimises the binned SAH cost", "statement": "Along each axis the bin counts sum to the number of primitives binned; each bin's box encloses the boxes of the primitives in it; and the cut reported for an axis is a bin boundary with least surface-area cost among all boundaries, the reported axis being one of least cost.", "quantifier": "all collections and node ranges, all bin sizes >= 1, exact arithmetic", "why_tests_cant": "optimality over all boundaries for all inputs", "anchors": ["blazert/bvh/binbuffer.h:sort_collection_into_bins", "blazert/bvh/binbuffer.h:find_best_split_binned", "blazert/bvh/binbuffer.h:calculate_box_surface"]}
{"id": "C08", "title": "Traversal never touches memory outside its stack", "statement": "A query on a built BVH never reads or writes outside its fixed-size node stack and never reads a node index out of range.", "quantifier": "all rays, all BVHs produced by build with the options the library accepts, including the defaults", "why_tests_cant": "overflow needs particular deep trees and ray directions; out-of-bounds writes need not be observable", "anchors": ["blazert/bvh/accel.h:traverse", "blazert/datatypes.h:Stack", "blazert/defines.h:BLAZERT_MAX_TREE_DEPTH"]}
{"id": "C09", "title": "Traversal terminates and visits each node at most once", "statement": "A query on a built BVH terminates after popping at most as many nodes as the BVH has.", "quantifier": "all rays, all built BVHs, all primitive types", "why_tests_cant": "termination for all inputs", "anchors": ["blazert/bvh/accel.h:traverse"]}
{"id": "C10", "title": "The node test is conservative", "statement": "If a point of the ray at distance t within [min_hit_distance, max_hit_distance] lies in the node's box, the node test answers true, so no node containing a hit is skipped.", "quantifier": "all boxes, all rays (axis-parallel included), all intervals", "why_tests_cant": "failures occur only for special origins and directions (zero components, signed zero, non-unit directions)", "anchors": ["blazert/bvh/intersect.h:intersect_node", "blazert/ray.h:Ray"]}
{"id": "C11", "title": "Traversal returns the closest hit", "statement": "For a primitive kind whose intersection routine reports the nearest hit closer than the current best, a query on the built BVH returns true exactly if some primitive is hit within the ray's interval, and then reports the least hit distance over all primitives and a primitive attaining it: the same as testing every primitive.", "quantifier": "all collections, all rays of the admissible kind, all build options, all partition implementations", "why_tests_cant": "equivalence with brute force for all scenes", "anchors": ["blazert/bvh/accel.h:traverse", "blazert/bvh/intersect.h:intersect_leaf", "blazert/bvh/intersect.h:intersect_node", "blazert/bvh/builder.h:build"]}
{"id": "C12", "title": "Any-hit queries answer occlusion correctly", "statement": "With AnyHit::yes a query returns true exactly if some primitive is hit within the ray's interval, and the reported distance and primitive are a genuine hit in the interval.", "quantifier": "all collections, all rays of the admissible kind, all build options", "why_tests_cant": "early exit interacts with traversal order", "anchors": ["blazert/bvh/accel.h:traverse", "blazert/bvh/intersect.h:intersect_leaf"]}
{"id": "C13", "title": "A miss leaves the hit record untouched", "statement": "If a query returns false, the caller's RayHit is exactly what it was before the call.", "quantifier": "all scenes, rays and initial RayHit contents, any arithmetic", "why_tests_cant": "must hold on every path", "anchors": ["blazert/bvh/accel.h:traverse", "blazert/scene.h:intersect1"]}
{"id": "C14", "title": "Query answers do not depend on build options or library partition order", "statement": "Two BVHs built over the same collection with different options or different standard libraries give the same hit/miss answer and hit distance for each ray.", "quantifier": "all collections, rays, pairs of build options and partition implementations", "why_tests_cant": "relational property over all pairs", "anchors": ["blazert/bvh/accel.h:traverse", "blazert/bvh/builder.h:build"]}
{"id": "C15", "title": "Ray directions need not be normalised by the caller", "statement": "Scaling the direction passed to the Ray constructor by a positive factor changes no query result.", "quantifier": "all scenes, rays, positive factors", "why_tests_cant": "depends on the relation between box distances and hit distances", "anchors": ["blazert/ray.h:Ray", "blazert/bvh/intersect.h:intersect_node"]}
{"id": "C16", "title": "Sphere intersection is exact", "statement": "Intersecting a ray with a sphere reports a hit exactly if the ray meets the surface at a distance strictly between min_hit_distance and the current hit distance, and then reports the least such distance.", "quantifier": "all spheres, unit directions, origins (inside, outside, on the surface), intervals with min_hit_distance >= 0, exact arithmetic", "why_tests_cant": "root selection for all configurations", "anchors": ["blazert/primitives/sphere.h:intersect_primitive", "blazert/primitives/sphere.h:prepare_traversal"]}
{"id": "C17", "title": "Sphere normals are unit length and point outward", "statement": "On a sphere hit with nonzero radius the reported normal is the unit vector from the center to the hit point.", "quantifier": "all spheres and rays", "why_tests_cant": "for all inputs", "anchors": ["blazert/primitives/sphere.h:post_traversal"]}
{"id": "C18", "title": "The sphere box encloses the sphere tightly", "statement": "For radius >= 0 the stored box encloses the whole sphere, contains its center, and each face touches the sphere.", "quantifier": "all centers, all radii >= 0", "why_tests_cant": "for all points of the surface", "anchors": ["blazert/primitives/sphere.h:pre_compute_bounding_box"]}
{"id": "C19", "title": "Sphere distance_to_surface is the distance to the surface", "statement": "distance_to_surface(sphere, p) is the least Euclidean distance from p to a point on the sphere.", "quantifier": "all spheres with radius >= 0, all points", "why_tests_cant": "minimum over infinitely many surface points", "anchors": ["blazert/primitives/sphere.h:distance_to_surface"]}
{"id": "C20", "title": "Plane intersection is exact", "statement": "Intersecting a ray with a plane patch reports a hit exactly if the ray crosses the patch's plane transversally at a point of the closed dx-by-dy rectangle at a distance strictly inside the interval; the distance reported is that of the crossing.", "quantifier": "all rotation matrices, centers, extents > 0, unit directions (parallel ones included), intervals with min_hit_distance >= 0", "why_tests_cant": "nine separate branches whose union must be exactly the closed rectangle", "anchors": ["blazert/primitives/plane.h:intersect_primitive"]}
{"id": "C21", "title": "Plane normals face the ray origin", "statement": "On a hit in the interior of the patch the reported normal is a unit normal of the patch on the side of the ray origin; on its border the reported normal still has a positive component toward the origin's side.", "quantifier": "all rotations, centers, extents, rays that hit", "why_tests_cant": "for all inputs", "anchors": ["blazert/primitives/plane.h:intersect_primitive", "blazert/primitives/plane.h:post_traversal"]}
{"id": "C22", "title": "The plane box encloses the patch", "statement": "The stored box encloses every point of the rectangle and contains its center.", "quantifier": "all rotations (any matrix), centers and extents", "why_tests_cant": "for all points of the patch", "anchors": ["blazert/primitives/plane.h:pre_compute_bounding_box"]}
{"id": "C23", "title": "Plane distance_to_surface measures the distance above the patch", "statement": "distance_to_surface(plane, p) is the distance from p to its foot point if p projects into the rectangle and numeric_limits::max otherwise.", "quantifier": "all planes, all points", "why_tests_cant": "depends on the position of the patch", "anchors": ["blazert/primitives/plane.h:distance_to_surface"]}
{"id": "C24", "title": "Triangle intersection is exact up to its tolerance", "statement": "A hit is reported exactly if the ray is not parallel to the triangle, meets its plane in a point whose scaled barycentric coordinates are at least minus the tolerance, at a distance t with min <= t < current distance; in particular each true crossing of the closed triangle is reported, and with zero tolerance nothing else is.", "quantifier": "all triangles (degenerate ones included), all rays, all intervals, both orientations", "why_tests_cant": "edge and vertex cases for all inputs", "anchors": ["blazert/primitives/trimesh.h:intersect_primitive", "blazert/primitives/trimesh.h:Triangle", "blazert/datatypes.h:product_sign"]}
{"id": "C25", "title": "Triangle uv coordinates locate the hit point", "statement": "On a triangle hit (1-u-v)*a + u*b + v*c equals origin + distance * direction, where a, b, c are the face's vertices in order.", "quantifier": "all triangles and rays that hit", "why_tests_cant": "for all inputs", "anchors": ["blazert/primitives/trimesh.h:intersect_primitive", "blazert/primitives/trimesh.h:Triangle", "blazert/primitives/trimesh.h:primitive_from_collection"]}
{"id": "C26", "title": "The triangle box encloses the triangle and its center", "statement": "The stored box encloses every point of the triangle, is the smallest such box, and contains the stored center.", "quantifier": "all meshes whose faces index existing vertices", "why_tests_cant": "for all points of the triangle", "anchors": ["blazert/primitives/trimesh.h:pre_compute_bounding_box", "blazert/primitives/trimesh.h:pre_compute_center"]}
{"id": "C27", "title": "Mesh shading normals", "statement": "face_normals[i] is the unit normal (b-a)x(c-a)/|.| of face i; vertex_normals[v] is one third of the sum of the normals of the faces containing v, counted with multiplicity; the reported hit normal is the normalised barycentric interpolation of the vertex normals, and for a planar consistently oriented mesh it is the face normal.", "quantifier": "all meshes with nondegenerate faces, all hits", "why_tests_cant": "accumulation over all faces", "anchors": ["blazert/primitives/trimesh.h:TriangleMesh", "blazert/primitives/trimesh.h:post_traversal"]}
{"id": "C28", "title": "closest_point_on_triangle is optimal", "statement": "For a nondegenerate triangle the returned point lies in the triangle and no point of the triangle is closer to the query point.", "quantifier": "all nondegenerate triangles, all query points", "why_tests_cant": "seven regions with interior sub-cases, minimum over infinitely many points", "anchors": ["blazert/primitives/trimesh_distance.h:closest_point_on_triangle", "blazert/primitives/trimesh_distance.h:r0..r6"]}
{"id": "C29", "title": "Triangle distance_to_surface", "statement": "distance_to_surface(triangle, p) is the distance from p to the nearest point of the triangle.", "quantifier": "all nondegenerate triangles, all points", "why_tests_cant": "minimum over infinitely many points", "anchors": ["blazert/primitives/trimesh.h:distance_to_surface", "blazert/primitives/trimesh.h:Triangle"]}
{"id": "C30", "title": "A reported cylinder hit lies on the cylinder and is the first one", "statement": "If a hit with a cylinder is reported, origin + distance*direction lies on the closed surface (lateral surface or caps) and no nearer point ahead of the origin does; if none is reported the ray does not meet the surface transversally ahead of the origin.", "quantifier": "all cylinders with positive semi-axes and height, all rotations, all rays with origin off the surface", "why_tests_cant": "four regions and many special directions", "anchors": ["blazert/primitives/cylinder.h:intersect_primitive"]}
{"id": "C31", "title": "Cylinder intersection honours the ray interval and the current best hit", "statement": "A cylinder hit is reported only if its distance is greater than min_hit_distance and less than the best distance so far, so that a query over several cylinders reports the nearest.", "quantifier": "all sets of cylinders, all rays and intervals", "why_tests_cant": "needs an unlucky order of primitives", "anchors": ["blazert/primitives/cylinder.h:intersect_primitive", "blazert/bvh/accel.h:traverse"]}
{"id": "C32", "title": "The cylinder box encloses the cylinder", "statement": "The stored box encloses every point of the cylinder.", "quantifier": "all cylinders, all rotations", "why_tests_cant": "for all points and rotations", "anchors": ["blazert/primitives/cylinder.h:pre_compute_bounding_box"]}
{"id": "C33", "title": "Cylinder normals are unit surface normals", "statement": "The reported normal at a cylinder hit is a unit vector normal to the surface at the hit point, in world coordinates.", "quantifier": "all cylinders, rotations and rays that hit", "why_tests_cant": "one branch may forget the rotation", "anchors": ["blazert/primitives/cylinder.h:intersect_primitive", "blazert/primitives/cylinder.h:post_traversal"]}
{"id": "C34", "title": "Cylinder distance_to_surface", "statement": "distance_to_surface(cylinder, p) is the least distance from p to the surface of the cylinder.", "quantifier": "all cylinders and points", "why_tests_cant": "minimum over infinitely many points; iteration may fail to converge", "anchors": ["blazert/primitives/cylinder.h:distance_to_surface", "blazert/primitives/cylinder.h:find_minimum_distance_to_ellipse", "blazert/primitives/cylinder.h:newton_iteration"]}
{"id": "C35", "title": "Geometry ids are handed out in order and at most one geometry per kind is accepted", "statement": "Over any sequence of add_mesh/add_spheres/add_planes/add_cylinders/commit calls, the ids returned by accepted adds are 0,1,2,... in order; an add is accepted exactly if the scene is not yet committed and no geometry of its kind was accepted before; refused adds return (unsigned)-1.", "quantifier": "all call histories", "why_tests_cant": "all histories", "anchors": ["blazert/scene.h:BlazertScene", "blazert/scene.h:add_mesh", "blazert/scene.h:add_spheres", "blazert/scene.h:add_planes", "blazert/scene.h:add_cylinders", "blazert/scene.h:commit"]}
{"id": "C36", "title": "Refused adds have no effect", "statement": "An add call that returns (unsigned)-1 leaves the scene unchanged: each later query and call behaves as if it had not been made.", "quantifier": "all call histories", "why_tests_cant": "all histories and continuations", "anchors": ["blazert/scene.h:add_mesh", "blazert/scene.h:add_spheres", "blazert/scene.h:add_planes", "blazert/scene.h:add_cylinders"]}
{"id": "C37", "title": "A scene query returns the nearest hit over all geometries with its ids", "statement": "On a committed scene with a fresh RayHit, intersect1 returns true exactly if some geometry is hit; the record then holds the least distance over the geometries, with the primitive id of the hit primitive and the geometry id that its add call returned.", "quantifier": "all scenes mixing the four kinds, all rays of the admissible kind", "why_tests_cant": "all combinations of kinds, order and distances", "anchors": ["blazert/scene.h:intersect1"]}
{"id": "C38", "title": "A query on an empty scene misses", "statement": "On a scene without geometry intersect1 returns false and leaves the RayHit unchanged, committed or not.", "quantifier": "all rays and RayHits", "why_tests_cant": "for all inputs", "anchors": ["blazert/scene.h:intersect1"]}
{"id": "C39", "title": "Committing twice does not change answers", "statement": "Calling commit again on a committed scene does not change the result of any later query.", "quantifier": "all scenes, rays, numbers of commits", "why_tests_cant": "second build appends to the node array", "anchors": ["blazert/scene.h:commit", "blazert/bvh/builder.h:build"]}
{"id": "C40", "title": "intersect1 can be called with a used hit record", "statement": "The answer of intersect1 (hit/miss, distance, ids) does not depend on the prior contents of the RayHit passed in.", "quantifier": "all scenes, rays and RayHit contents", "why_tests_cant": "depends on stale state", "anchors": ["blazert/scene.h:intersect1"]}
{"id": "C41", "title": "Scenes must be committed before they are queried", "statement": "A query on a committed scene never indexes an empty node array; a query on an uncommitted scene with geometry does.", "quantifier": "all call histories", "why_tests_cant": "undefined behaviour", "anchors": ["blazert/scene.h:intersect1", "blazert/scene.h:commit", "blazert/bvh/accel.h:traverse"]}
{"id": "C42", "title": "Embree sphere callback agrees with the native sphere", "statement": "The Embree sphere intersect callback reports a hit exactly if the native sphere routine does, with the same distance and normal, and its bounds equal the native box.", "quantifier": "all spheres, unit directions and intervals with tnear >= 0", "why_tests_cant": "agreement for all inputs", "anchors": ["blazert/embree/primitives/EmbreeSphere.h:sphereIntersectFunc", "blazert/embree/primitives/EmbreeSphere.h:sphereBoundsFunc", "blazert/embree/primitives/EmbreeGeometryObject.h:setRayHit"]}
{"id": "C43", "title": "Embree sphere occlusion agrees with intersection", "statement": "The Embree sphere occluded callback marks the ray occluded exactly if the intersect callback finds a hit.", "quantifier": "all spheres, rays, intervals", "why_tests_cant": "needs origins inside the sphere", "anchors": ["blazert/embree/primitives/EmbreeSphere.h:sphereOccludedFunc"]}
{"id": "C44", "title": "Embree plane occlusion agrees with intersection", "statement": "The Embree plane occluded callback marks the ray occluded exactly if the intersect callback finds a hit.", "quantifier": "all planes with positive extents, rays, intervals", "why_tests_cant": "nine branches against one closed comparison", "anchors": ["blazert/embree/primitives/EmbreePlane.h:planeIntersectFunc", "blazert/embree/primitives/EmbreePlane.h:planeOccludedFunc"]}
{"id": "C45", "title": "Embree cylinder occlusion agrees with intersection", "statement": "The Embree cylinder occluded callback marks the ray occluded exactly if the intersect callback finds a hit.", "quantifier": "all cylinders, rays, intervals", "why_tests_cant": "separate copies of the case analysis", "anchors": ["blazert/embree/primitives/EmbreeCylinder.h:cylinderIntersectFunc", "blazert/embree/primitives/EmbreeCylinder.h:cylinderOccludedFunc"]}
{"id": "C46", "title": "The Embree-backed scene reports the geometry id", "statement": "After a hit through the Embree-backed scene, RayHit.geom_id identifies the geometry that was hit.", "quantifier": "all scenes, rays that hit, Embree results", "why_tests_cant": "depends on which fields are copied", "anchors": ["blazert/embree/scene.h:intersect1"]}
{"id": "C47", "title": "The traversal stack is a LIFO stack within its capacity", "statement": "Any sequence of push_back/pop_back/back calls that never exceeds capacity-1 elements and never pops an empty stack behaves like a mathematical stack.", "quantifier": "all operation sequences", "why_tests_cant": "all histories", "anchors": ["blazert/datatypes.h:Stack"]}
{"id": "C48", "title": "product_sign multiplies by the sign bit", "statement": "product_sign(x, y) has the magnitude of x and the sign of x times the sign bit of y, for every non-NaN x and every y, including signed zeros and infinities.", "quantifier": "all bit patterns of binary32 and binary64", "why_tests_cant": "2^64 and 2^128 input pairs", "anchors": ["blazert/datatypes.h:product_sign", "blazert/datatypes.h:as"]}
{"id": "C49", "title": "Build is defined in binary64 on well-formed collections", "statement": "In binary64, for bin_size >= 1 and finite primitives whose centers lie in their boxes, every bin index computed by the builder is convertible to unsigned.", "quantifier": "all finite binary64 collections whose boxes contain their centers", "why_tests_cant": "Fails only for extents whose reciprocal or whose difference overflows; ordinary scenes never get there.", "anchors": ["blazert/bvh/binbuffer.h:sort_collection_into_bins", "blazert/bvh/binbuffer.h:find_best_split_binned", "blazert/bvh/builder.h:build"]}
{"id": "C50", "title": "Embree plane callback agrees with the native plane", "statement": "The Embree plane intersect callback reports a hit exactly if the native plane routine does, with the same distance and normal, and its bounds equal the native box.", "quantifier": "all patches with positive extents and orthogonal rotations, unit directions and intervals with tnear >= 0", "why_tests_cant": "agreement for all inputs, over nine branches", "anchors": ["blazert/embree/primitives/EmbreePlane.h:planeIntersectFunc", "blazert/embree/primitives/EmbreePlane.h:planeBoundsFunc"]}
{"id": "C51", "title": "Embree cylinder callback agrees with the native cylinder", "statement": "The Embree cylinder intersect callback reports a hit exactly if the native cylinder routine does, with the same distance; the normals are equal, or Embree's is the native one turned by the rotation; the bounds equal the native box.", "quantifier": "all cylinders with positive semi-axes, all rays", "why_tests_cant": "two separate copies of the case analysis", "anchors": ["blazert/embree/primitives/EmbreeCylinder.h:cylinderIntersectFunc", "blazert/embree/primitives/EmbreeCylinder.h:cylinderBoundsFunc"]}
{"id": "C52", "title": "No dangling user pointers in the Embree-backed scene", "statement": "Committing a float EmbreeScene and querying it touches no freed primitive exactly if spheres, planes and cylinders were added at most once each.", "quantifier": "all sequences of additions, all callback orders, all rays", "why_tests_cant": "needs all sequences of calls and an observer of freed memory", "anchors": ["blazert/embree/scene.h:add_spheres", "blazert/embree/scene.h:add_planes", "blazert/embree/scene.h:add_cylinders"]}
{"id": "C53", "title": "The float Embree-backed scene numbers geometries and attaches first primitives", "statement": "Additions to a float EmbreeScene return consecutive ids from 0, attach the first primitive of the collection under that id, and are undefined on empty collections.", "quantifier": "all sequences of additions", "why_tests_cant": "needs all sequences of calls", "anchors": ["blazert/embree/scene.h:add_spheres", "blazert/embree/scene.h:add_mesh"]}
{"id": "C54", "title": "The float Embree-backed scene reports the nearest hit", "statement": "In a float scene of meshes, one sphere and one plane, intersect1 reports the nearest hit within the ray interval, with the normal of that hit, whichever callbacks Embree runs and in whichever order, provided it leaves out only geometries whose bounds the ray does not meet. With a cylinder the answer depends on the order.", "quantifier": "all scenes, rays, lists of callbacks and hit records", "why_tests_cant": "needs all orders of callbacks and all placements of the primitives", "anchors": ["blazert/embree/scene.h", "blazert/embree/primitives/EmbreeSphere.h", "blazert/embree/primitives/EmbreePlane.h"]}
{"id": "C55", "title": "The double Embree-backed scene behaves as BlazertScene", "statement": "With double every sequence of calls on EmbreeScene gets the same replies as on BlazertScene.", "quantifier": "all sequences of calls that are defined on BlazertScene", "why_tests_cant": "needs all sequences of calls", "anchors": ["blazert/embree/scene.h"]}
{"id": "C56", "title": "Embree buffer strides equal the element sizes", "statement": "The stride passed for the vertex and index buffers of a mesh is the size of one element.", "quantifier": "all element sizes", "why_tests_cant": "depends on the memory layout of the vector type", "anchors": ["blazert/embree/scene.h:add_mesh"]}
{"id": "C57", "title": "intersection of two boxes", "statement": "datatypes.h intersection returns the least box around both boxes; it is not the set intersection of the boxes.", "quantifier": "all boxes", "why_tests_cant": "the boxes are arbitrary", "anchors": ["blazert/datatypes.h:intersection"]}
{"id": "C58", "title": "sgn", "statement": "sgn returns 1, 0 or -1 as the number is positive, zero or negative, and 0 for a NaN.", "quantifier": "all numbers", "why_tests_cant": "all values of the scalar type", "anchors": ["blazert/datatypes.h:sgn"]}
{"id": "C59", "title": "Orthonormal basis of the path tracer", "statement": "revised_onb gives two vectors that form a right-handed orthonormal frame with the given unit vector.", "quantifier": "all unit vectors", "why_tests_cant": "all unit vectors, both signs of z", "anchors": ["examples/path_tracer/main.cc:revised_onb"]}
{"id": "C60", "title": "Cosine-weighted direction", "statement": "direction_cos_theta gives a unit vector in the hemisphere of the normal whose coordinates in the frame of revised_onb are the sampled point of the disc lifted to the hemisphere.", "quantifier": "all unit normals, all random numbers", "why_tests_cant": "all random numbers", "anchors": ["examples/path_tracer/main.cc:direction_cos_theta"]}
{"id": "C61", "title": "Mirror reflection", "statement": "reflect turns the normal part of the vector round and keeps the rest, keeps the length, and is its own inverse.", "quantifier": "all vectors and unit normals", "why_tests_cant": "all vectors", "anchors": ["examples/path_tracer/main.cc:reflect"]}
{"id": "C62", "title": "Refraction", "statement": "refract obeys Snell's law for the ratio it is given and returns the zero vector on total reflection. The ratio it is given is n outside and 1/n inside, the reverse of what the law asks for.", "quantifier": "all unit vectors and ratios", "why_tests_cant": "all angles and ratios", "anchors": ["examples/path_tracer/main.cc:refract", "examples/path_tracer/main.cc:path loop"]}
{"id": "C63", "title": "Choice of the interaction", "statement": "The interaction chosen is the one whose interval holds the random number; the intervals are the normalised probabilities; the reflectance lies in [0,1]; the normal used faces the ray. With dissolve 1 (opaque) light is still refracted through.", "quantifier": "all materials, reflectances and random numbers", "why_tests_cant": "all materials and random numbers", "anchors": ["examples/path_tracer/main.cc:path loop"]}
{"id": "C64", "title": "Area light", "statement": "The light consists of exactly the emitting faces; a sample is an evenly distributed point of one of them with the right direction, distance, radiance and density. Without emitting faces sampling is undefined.", "quantifier": "all meshes, materials, points and random numbers", "why_tests_cant": "all meshes and random numbers", "anchors": ["examples/path_tracer/main.cc:MeshLight", "examples/path_tracer/main.cc:sample_direct"]}
{"id": "C65", "title": "Shadow test", "statement": "check_for_occluder answers whether a face lies between the two points.", "quantifier": "all meshes, option sets and pairs of points", "why_tests_cant": "all pairs of points", "anchors": ["examples/path_tracer/main.cc:check_for_occluder"]}
{"id": "C69", "title": "Path loop", "statement": "Every pixel of the path tracer is a finite colour without negative parts, and nothing undefined happens, provided some face emits, every face has a valid material and the interpolated normals do not vanish.", "quantifier": "all meshes, materials and sequences of random numbers", "why_tests_cant": "all sequences of random numbers", "anchors": ["examples/path_tracer/main.cc:path loop"]}
{"id": "C71", "title": "Queries pass over no box the ray enters, in IEEE arithmetic", "statement": "In IEEE arithmetic (binary32, binary64 and any format of at least six bits), a query on a built tree of depth at most 26 either offers every primitive whose stored box the exact ray meets inside the query interval, with a margin of four units of roundoff at the far end, to the primitive routine, which rejects it; or its answer is that of a primitive the routine accepted (for any-hit queries: accepted when started afresh).", "quantifier": "All collections with finite boxes below an eighth of the overflow threshold, all rays with finite origin, normal or positive-zero direction components, all intervals, all partition orders and build options.", "why_tests_cant": "The rounding of every slab distance depends on all bits of box, origin and direction; a miss at a box boundary occurs for isolated inputs only.", "anchors": ["blazert/bvh/intersect.h:32-51", "blazert/bvh/accel.h:79-120", "blazert/ray.h:30-60"]}
{"id": "C66", "title": "OBJ files: geometry", "statement": "Loading a well-formed OBJ file gives one face for every triangle of the fans of its polygons, in file order, and the corners of each face are the scaled vertices the file names; every stored vertex is a scaled vertex of the file. A polygon with fewer than two corners makes the loader read past the end of the corner list.", "quantifier": "all well-formed files, scales and material files", "why_tests_cant": "arbitrary files with groups, relative indices, shared vertices", "anchors": ["examples/path_tracer/main.cc:166-223", "examples/common/tiny_obj_loader.cc:296-408"]}
{"id": "C67", "title": "Images store every pixel", "statement": "Whatever the order of the loops, each pixel of the picture ends in its own three cells, bottom row last; cells of rays that hit nothing stay black. For sizes whose product wraps in 32 bits the store leaves the array.", "quantifier": "all sizes, all pixel functions, all orders of the loop", "why_tests_cant": "all sizes and all interleavings of the parallel loop", "anchors": ["examples/path_tracer/main.cc:317-472", "examples/scene_primitives/main.cc:86-113"]}
{"id": "C68", "title": "Bytes of the image files", "statement": "The bytes written for a picture are, in IEEE arithmetic, the clamped and truncated rounding of 255 times each value: monotone, 0 for values up to 0, 255 from 1 on. The PPM writer has no defined result for NaN.", "quantifier": "all pictures, all IEEE formats with at least 8 digits", "why_tests_cant": "all bit patterns", "anchors": ["examples/path_tracer/main.cc:148-164", "examples/renderer/renderer.cc:143-153"]}
{"id": "C70", "title": "From the OBJ file to the hit", "statement": "A query on the tree built from the mesh loaded from an OBJ file answers with the nearest triangle of the file, up to the tolerance of the determinant test.", "quantifier": "all well-formed files, options, partition orders of the builder, rays", "why_tests_cant": "all files and rays", "anchors": ["blazert/primitives/trimesh.h", "blazert/bvh/builder.h", "blazert/bvh/accel.h"]}
{"id": "C72", "title": "OBJ files: materials", "statement": "Every face carries the number of the material in force at its line and the list of materials is the one its material files describe, each with the values of its lines; if a name is always in force the list of lights is defined. If none is in force the number is 4294967295 and the list of lights reads outside the materials.", "quantifier": "all well-formed files and material files", "why_tests_cant": "all files", "anchors": ["examples/path_tracer/main.cc:166-223"]}
{"id": "C73", "title": "OBJ files: texture coordinates", "statement": "If in each shape all or no corners have texture coordinates, the loaded list holds those of the textured triangles in order. It is not one entry per face when shapes without them exist, and a shape mixing both kinds of corner reads past the end.", "quantifier": "all well-formed files", "why_tests_cant": "all files", "anchors": ["examples/path_tracer/main.cc:166-223"]}
{"id": "C74", "title": "Progress bar", "statement": "The bar has width cells, of which width*tick/total, rounded down, are filled.", "quantifier": "all ticks up to the total, all widths up to 2^24-1", "why_tests_cant": "all counts", "anchors": ["examples/path_tracer/main.cc:248-255"]}
{"id": "C75", "title": "Camera rays", "statement": "If the camera does not look along its up vector, each ray of the renderer starts at the eye with a unit direction through the centre of its pixel on a screen of square pixels at right angles to the view direction; different pixels have different rays, all inside the field of view, and every ray is one for which the queries are exact. Looking along the up vector gives NaN directions. The rays of the other examples likewise.", "quantifier": "all cameras, picture sizes and pixels", "why_tests_cant": "all cameras and sizes", "anchors": ["examples/renderer/renderer.cc:86-104", "examples/scene_mesh/main.cc:67", "examples/scene_primitives/main.cc:95"]}
{"id": "C76", "title": "Picture of the renderer", "statement": "Every pixel of the rendered picture is black if its ray crosses no triangle of the OBJ file, and else shows the absolute value of the interpolated normal at the nearest one.", "quantifier": "all well-formed files, cameras, picture sizes, options and partition orders", "why_tests_cant": "all files and cameras", "anchors": ["examples/renderer/renderer.cc:86-137"]}
{"id": "C77", "title": "Numbers in OBJ files", "statement": "Every text [sign] digits [. digits] [e|E [sign] digits] is read as the number it denotes, up to the rounding of the arithmetic. (False for a number that starts with its point, which is read as 0; undefined for an exponent that is no int.)", "quantifier": "all texts of this form", "why_tests_cant": "all texts", "anchors": ["examples/common/tiny_obj_loader.cc:103-247"]}
{"id": "C78", "title": "Lines of OBJ and material files", "statement": "Every line of an OBJ or material file - keyword, numbers, corners i, i/j, i//k, i/j/k, names, with any blanks between them - is read as what it says; any other text is read without running off its end, and is undefined only for integers that are no int and for missing or too long names.", "quantifier": "all lines", "why_tests_cant": "all texts", "anchors": ["examples/common/tiny_obj_loader.cc:72-101", "examples/common/tiny_obj_loader.cc:249-294", "examples/common/tiny_obj_loader.cc:430-632", "examples/common/tiny_obj_loader.cc:726-889"]}
{"id": "C79", "title": "Files of lines", "statement": "A file of lines ended by LF or CR LF, each of at most 8190 characters, is read as the commands of its lines in order, and the material files it names likewise. (Longer lines lose the rest of the file; a material file whose last line has no end is refused.)", "quantifier": "all files", "why_tests_cant": "all texts", "anchors": ["examples/common/tiny_obj_loader.cc:410-432", "examples/common/tiny_obj_loader.cc:642-720", "examples/common/tiny_obj_loader.cc:911-940"]}
{"id": "C80", "title": "From the text to the hit", "statement": "A ray through the mesh loaded from the text of an OBJ file meets the nearest triangle of those the text describes, and the materials are those of the material files' text.", "quantifier": "all well-formed texts and all rays for which queries are exact", "why_tests_cant": "all texts and rays", "anchors": ["examples/common/tiny_obj_loader.cc:663-1097", "examples/path_tracer/main.cc:166-223", "examples/scene_mesh/main.cc:14-42", "bvh/intersect.h"]}
{"id": "C81", "title": "Accuracy of numbers in OBJ files", "statement": "In double and float, a number of up to a hundred digits on either side of its point and an exponent up to fifty is read with a relative error of at most (1+2^-53)^k (1+2^-24) - 1, k the number of roundings (two for each digit before the point, one for each after it, six more), if pow is off by at most one unit in the last place; integers below 2^24 are read exactly. (The double is not always the nearest one: 0.3.)", "quantifier": "all numbers of this size", "why_tests_cant": "all texts", "anchors": ["examples/common/tiny_obj_loader.cc:128-261"]}
{"id": "C82", "title": "Triangle routine with rounding", "statement": "In every IEEE format of at least 20 digits, for coordinates up to M far from overflow and a unit direction known up to 5u per component (u half a unit of roundoff): an accepted triangle is passed by the exact ray on one side of all edges up to 980uM^2 and its plane lies in the interval up to 400uM^2(M+t); the recorded distance lies on the plane up to 512uM^2(M+t) and the weights are right up to 384uM^2(1+|w|), unless the triangle is seen edge-on; and a triangle passed with a margin of 967uM^2 inside the interval is accepted.", "quantifier": "all triangles, rays and intervals of moderate size", "why_tests_cant": "all numbers", "anchors": ["blazert/primitives/trimesh.h:153-181"]}
{"id": "C83", "title": "Normalised direction with rounding", "statement": "A direction of length between 4096u and 1/u, normalised in floating point, is the exact unit vector up to 5u per component.", "quantifier": "all directions", "why_tests_cant": "all numbers", "anchors": ["blazert/ray.h:40-60"]}
{"id": "C84", "title": "Mesh query with rounding", "statement": "In IEEE arithmetic a query on a built tree over a mesh of moderate size: a miss means no face is hit with the margin of C82; a hit names a face that is hit up to the errors of C82, with its distance and weights up to those errors; and no face hit with the margin lies before the distance of a closest-hit query, up to one rounding of the distance for each face. Without the margin a ray through the interior of a mesh can slip between two faces (binary32).", "quantifier": "all meshes, trees and rays of moderate size", "why_tests_cant": "all inputs and roundings", "anchors": ["blazert/primitives/trimesh.h:97-181", "blazert/bvh/accel.h:80-130"]}
{"id": "C85", "title": "Mesh construction with rounding", "statement": "In every IEEE format of at least 20 digits, for vertices with coordinates up to M far from overflow: the center of a face is its centroid up to 4uM per coordinate (it may leave the face's box); the mesh and its hierarchy can be built if the extents of boxes are zero or at least 256uM times the number of bins, in particular for vertices on a grid of that width, and queries then answer as in C84; for smaller extents building is undefined (a mesh of height one at 2^53-2 in binary64 with the default options converts a negative bin number to unsigned).", "quantifier": "all meshes of moderate size, all options with at most 2^32/3 bins", "why_tests_cant": "all vertices and roundings", "anchors": ["blazert/primitives/trimesh.h:78-130", "blazert/bvh/binbuffer.h:66-95"]}
{"id": "C86", "title": "Each pixel of a scene picture shows the nearest primitive", "statement": "The picture that scene_primitives writes has, for every size, the colour of the first primitive on the pixel's line of sight: red for the first of its geometry, green for the others, black if nothing is on it.  For any scene whose queries are right for all pixels (C37) the bytes say so; the example's own scene is drawn without its second cylinder, because the eye lies in the plane of one of that cylinder's caps.", "quantifier": "all sizes, all orders of the pixel loop, all scenes", "why_tests_cant": "all lines of sight of all pixels; the baseline picture lacks the cylinder too", "anchors": ["examples/scene_primitives/main.cc:33-115", "blazert/primitives/cylinder.h:160-330"]}
{"id": "C87", "title": "Sphere routine with rounding", "statement": "In IEEE arithmetic, with radii and distances from the ray's origin to the centers up to M: an accepted sphere has a surface point at the reported distance, up to 256 u M^2 in the point's power with respect to the sphere, and that point is not behind the distance known before; a sphere whose surface the ray crosses with that margin is accepted, at most 28 u M late. Without the margin a ray that passes a unit sphere's center at less than half a unit misses the sphere from 4000 units away (binary32).", "quantifier": "all spheres, rays and intersector states of moderate size", "why_tests_cant": "all numbers and roundings", "anchors": ["blazert/primitives/sphere.h:100-177"]}
{"id": "C88", "title": "Spheres with rounding, from centers and radii to the answer", "statement": "In IEEE arithmetic, for spheres of moderate size whose boxes are not so thin as to underflow: the collection and its hierarchy are built without undefined behaviour, and on any such hierarchy a miss means that no surface is crossed with the margin of C87; a hit names a sphere that has a surface point at the reported distance up to the error of C87, with the outward normal up to 80 u M / r; and no surface is crossed with the margin before the distance of a closest-hit query, up to 40 u M for each sphere.", "quantifier": "all collections, hierarchies, options and rays of moderate size", "why_tests_cant": "all inputs and roundings", "anchors": ["blazert/primitives/sphere.h:20-182", "blazert/bvh/accel.h:80-130", "blazert/bvh/builder.h"]}
{"id": "C89", "title": "Patch routine with rounding", "statement": "In IEEE arithmetic, with half the sides and the center's distance from the ray's origin up to M and a matrix that is a rotation up to four units of roundoff: an accepted patch is at the reported distance, up to 256 u M from its plane and from its sides, not behind the distance known before, and the recorded normal is that of the side on which the origin lies, up to 64 u (tilted at most where the point is at a side); a patch that the ray pierces at a distance from its sides of at least 256 u M divided by the sine of the angle between ray and plane is accepted, at most that late. Without the margin a ray at a fifth of a degree through the exact center of a patch misses it from 12672 units away (binary32).", "quantifier": "all patches, rays and intersector states of moderate size", "why_tests_cant": "all numbers and roundings", "anchors": ["blazert/primitives/plane.h:165-270"]}
{"id": "C90", "title": "Patches with rounding, from their numbers to the answer", "statement": "In IEEE arithmetic, for patches of moderate size whose boxes are not so thin as to underflow: the collection and its hierarchy are built without undefined behaviour, and on any such hierarchy a miss means that no patch is pierced with the margin of C89; a hit names a patch at the reported distance up to the error of C89 and has its normal; and no patch is pierced with the margin before the distance of a closest-hit query, up to the margin and 128 u M for each patch, although the computed boxes may cut off part of a patch.", "quantifier": "all collections, hierarchies, options and rays of moderate size", "why_tests_cant": "all inputs and roundings", "anchors": ["blazert/primitives/plane.h:71-270", "blazert/bvh/accel.h:80-130", "blazert/bvh/builder.h"]}
{"id": "C91", "title": "Scene queries with rounding", "statement": "In IEEE arithmetic, whatever calls built a scene of a mesh, spheres, plane patches and cylinders of moderate size: the calls succeed if no extent of a bounding box is too small but not zero; a query that misses means that no primitive of any geometry is hit with the margins of C84, C88, C90 and C102; a query that hits names a geometry and a primitive that are hit at the reported distance, with the recorded normal (for cylinders that of C103, for triangles that of C104), up to the errors stated there; and for a closest-hit query no triangle, sphere or patch of the scene is hit with a margin before the distance, up to the same errors, and the distance is not behind the first meeting with some cylinder, if one is in plain view - with a single cylinder: not behind the place where the ray enters it. Ties between geometries within the rounding errors may be decided either way.", "quantifier": "all histories of calls, scenes, options, rays and records of moderate size", "why_tests_cant": "all inputs, histories and roundings", "anchors": ["blazert/scene.h:40-220", "blazert/bvh/accel.h:80-130", "blazert/primitives/trimesh.h", "blazert/primitives/sphere.h", "blazert/primitives/plane.h", "blazert/primitives/cylinder.h"]}
{"id": "C92", "title": "The benchmark's sphere mesh is well formed", "statement": "OriginSphere(resolution) is defined exactly for resolutions up to 13: above, the number of vertices to reserve exceeds an unsigned int. Its mesh has 20*4^resolution faces and 20*4^resolution - 8 vertices, every index refers to a vertex, and the surface has no border: each edge of a face is run through in the opposite direction by some face, although vertices are not shared between faces, since the midpoints of an edge computed from both sides are equal in IEEE arithmetic too.", "quantifier": "all resolutions, every arithmetic", "why_tests_cant": "every resolution, and bit patterns in every format", "anchors": ["benchmarks/benchmark_helper/OriginSphere.h:9-119", "benchmarks/benchmark_helper/OriginMesh.h:20-60"]}
{"id": "C93", "title": "The benchmark's sphere mesh approximates the unit sphere", "statement": "In exact arithmetic the vertices of OriginSphere(n) lie on the unit sphere, its faces are oriented outwards, their edges are shorter than sqrt(6 / (2 + 4^n)), every point of a face has a distance from the center between sqrt(4^n / (2 + 4^n)) and 1, every direction from the center passes through some face, and the interiors of no two faces overlap as seen from the center.", "quantifier": "all resolutions, and any number above 1 in the place of the golden ratio", "why_tests_cant": "all resolutions, points and directions", "anchors": ["benchmarks/benchmark_helper/OriginSphere.h:9-119"]}
{"id": "C94", "title": "Rays from the center hit the benchmark's sphere", "statement": "In exact arithmetic the hierarchy over OriginSphere(n) can be built, and a ray from the center whose direction has a nonzero z component hits a face in whose cone the direction lies, at a distance between sqrt(4^n / (2 + 4^n)) and 1 if that interval is allowed. For rays with z = 0, such as those from the center to the vertices in the worst-case benchmark, this fails: in float a ray aimed at a vertex may miss.", "quantifier": "all resolutions, options of small depth, rays and records", "why_tests_cant": "all resolutions and rays", "anchors": ["benchmarks/benchmark_BVH/worst_case/benchmark_BVH_traverse.cpp:28-50", "benchmarks/benchmark_helper/OriginSphere.h:9-119"]}
{"id": "C95", "title": "The benchmark's sphere does not drift with rounding", "statement": "In IEEE arithmetic every vertex of OriginSphere(n) is off the unit sphere by at most nine units of roundoff, whatever n: errors do not add up over the subdivisions.", "quantifier": "all resolutions and binary formats", "why_tests_cant": "all resolutions and roundings", "anchors": ["benchmarks/benchmark_helper/OriginSphere.h:9-119"]}
{"id": "C96", "title": "The renderer turns a model's text into a picture file", "statement": "For the text of a well-formed model and exact arithmetic, the renderer's main writes a PPM file: the header's numbers are the decimal width, height and 255, then three bytes for each pixel follow from the top row down. A pixel is black if its line of sight from the eye at (0,5,10) meets no triangle of the text, and otherwise shows the absolute value of the interpolated normal, scaled to bytes, where the line first meets one. If the file is missing or refused the program does not notice and writes a black picture. A degenerate face in the text can make a pixel NaN, whose conversion to a byte is undefined.", "quantifier": "all texts of well-formed models with trees of small depth whose normals do not cancel, all sizes", "why_tests_cant": "every file and every pixel", "anchors": ["examples/renderer/renderer.cc:118-156", "examples/renderer/renderer.cc:60-116"]}
{"id": "C97", "title": "scene_mesh and benchmark_blaze run to their end", "statement": "For the text of a well-formed model, or without one, main of scene_mesh and of benchmark_blaze loads it, builds the hierarchy and answers the queries of any list of pixels with no undefined behaviour: no index out of bounds, no stack overflow, no endless loop.", "quantifier": "all texts of well-formed models with trees of small depth, all sizes and pixel orders", "why_tests_cant": "every file and every order", "anchors": ["examples/scene_mesh/main.cc:45-78", "examples/benchmark_blaze/main.cc:46-81"]}
{"id": "C98", "title": "What the stream output operators print as JSON", "statement": "operator<< of a sphere, plane, cylinder, Embree sphere and (up to one wrong coordinate) triangle prints a JSON object listing its members. A constructed collection and every scene made with the library's calls print without undefined behaviour, and the text is JSON with the primitives in order exactly if no collection is empty. The text of a mesh does not determine its vertices. Rays, hit records, statistics, nodes, hierarchies, Embree planes and Embree cylinders never print JSON.", "quantifier": "all objects, all collections and scenes of fewer than 2^32 primitives, all ways to write numbers and addresses as words", "why_tests_cant": "every object and every number of primitives; a text that is JSON for one scene says nothing about another", "anchors": ["blazert/primitives/sphere.h:184-220", "blazert/primitives/plane.h:287-326", "blazert/primitives/cylinder.h:761-802", "blazert/primitives/trimesh.h:195-227", "blazert/scene.h:118-150", "blazert/ray.h:87-120", "blazert/bvh/node.h:43-53", "blazert/bvh/accel.h:122-144", "blazert/bvh/statistics.h:39-53"]}
{"id": "C99", "title": "The path tracer as a whole", "statement": "Given the text of a model in which every triangle has a material, at least one material in use emits light and all materials are physical, and whose tree is shallow and whose normals do not vanish, the path tracer ends without undefined behaviour and hands to the PNG writer a picture of the asked size, rows from the top, each byte that of the gamma-corrected mean of the samples, no mean negative. A text with a triangle without material makes it read outside the materials; a missing or refused file makes it return -1.", "quantifier": "all texts, material libraries, scales, picture sizes below 2^32 bytes, orders of the pixels and random numbers", "why_tests_cant": "every text and every outcome of the random numbers; a run shows one picture of one model", "anchors": ["examples/path_tracer/main.cc:272-480", "examples/common/tiny_obj_loader.cc:1-1099"]}
{"id": "C100", "title": "The PNG files decode to the pictures", "statement": "The bundled PNG writer is lossless: for any picture of bytes with one to four samples a pixel whose rows are at most 16777215 bytes long and whose filtered data are at most 2^29 bytes, writing ends without undefined behaviour (no read outside the pixels, the hash lists or the code tables, no overflow), and the file read back by the PNG, zlib and deflate specifications - signature, chunk lengths and checksums, header, compressed blocks, Adler-32, scanline filters - has that size and those pixels. Hence the file of the path tracer shows the computed picture. With longer rows the filter heuristic can overflow an int.", "quantifier": "all pictures, sizes, sample counts and strides within the limits; all byte strings for the compressor and the checksum", "why_tests_cant": "every byte string and every picture; viewing a file tests one picture, and a wrong match or filter appears only for particular bytes", "anchors": ["examples/common/stb_image_write.h:620-1001", "examples/path_tracer/main.cc:148-164", "examples/scene_primitives/main.cc:14-30"]}
{"id": "C101", "title": "The cylinder routine with rounding", "statement": "In binary floating point, for an elliptic cylinder and a ray of moderate size (distance and axes between r and M), with margins 2048 u (M/r)^2 across and 256 u M along the axis: a ray from outside that is accepted meets the surface at the reported distance up to the margins and does not go through the interior before; a ray from the interior always hits, at the distance where it leaves; a ray from outside that enters the interior away from the two rims always hits, before it is inside. A ray entering beside a rim can be missed.", "quantifier": "all binary formats, cylinders, rotations, rays and states within the size conditions", "why_tests_cant": "every float; the wrong answers appear only for rays near the surface by a few units in the last place", "anchors": ["blazert/primitives/cylinder.h:166-174", "blazert/primitives/cylinder.h:181-495"]}
{"id": "C102", "title": "Queries on cylinders with rounding", "statement": "In binary floating point, for any collection of elliptic cylinders and a ray of the sizes of C101 whose origin is outside or inside of each with the margins: a query that answers true names a cylinder and the distance of the first meeting with that cylinder up to the margins, and the normal of C103 there; a query that answers false leaves the record alone, and then no cylinder is in plain view, that is entered or left away from the rims at a point inside the code's box by 32 u M, as all points are if the cylinder's matrix maps axes to axes. Construction of the tree succeeds. The named cylinder need not be the nearest.", "quantifier": "all binary formats, collections, rotations, trees, partition orders and rays within the size conditions", "why_tests_cant": "every float and every tree; misses appear only for rays near rims or outside the undersized boxes", "anchors": ["blazert/primitives/cylinder.h:91-147", "blazert/primitives/cylinder.h:154-174", "blazert/primitives/cylinder.h:181-495", "blazert/bvh/accel.h"]}
{"id": "C103", "title": "Normals of cylinders with rounding", "statement": "In binary floating point, under the size conditions of C101 and with M at most 1/(4096 u): after an accepted hit from outside, the stored normal is, up to 2048 u (M/r)^2 per component, the outward axis of the cap or the unit normal of the elliptic tube at the stored distance, turned by the cylinder's matrix. From inside the same holds for caps, and for the tube if the ray runs exactly across the axis; otherwise the stored normal is the tube's in the cylinder's own coordinates, not turned, which can be wrong by 3/5 in a component.", "quantifier": "all binary formats, cylinders, rotations and rays within the size conditions", "why_tests_cant": "every float; the unturned normal shows only for rays from inside a cylinder that is turned", "anchors": ["blazert/primitives/cylinder.h:181-495"]}
{"id": "C104", "title": "Normals of meshes with rounding", "statement": "In binary floating point, if at every face's first corner the sine of the angle is at least 1/k, areas and edges are neither tiny nor huge (twice the area between 8192 u and 1/(2u), edges at most 1/u) and no vertex is a corner more than m times (k and m at most 1/(1024 u)): the mesh stores every face's unit normal up to 32 k u per component, and at a vertex of valence c a third of the sum of the normals around it up to c (32 k + c) u / 2. A query on the mesh (C84) then records the normalized mixture of the three vertex normals, with the weights it recorded, up to 80 m (32 k + m) u / g per component, where g is the mixture's length and at least 512 m (32 k + m) u.", "quantifier": "all binary formats, meshes and rays within the conditions of C84 and of this property", "why_tests_cant": "every float; errors grow where faces are thin, vertices have many faces, or normals nearly cancel, which samples of regular meshes avoid", "anchors": ["blazert/primitives/trimesh.h:72-144"]}
{"id": "C105", "title": "Embree's sphere and plane callbacks with rounding", "statement": "In binary floating point with unit roundoff u, if the ray starts within M of the center of the sphere (radius at most M) or patch (half sides at most M) and its direction is a unit vector U up to 5u per component: the intersection callback either leaves the record unchanged, and then U's line does not cross the surface, with a margin of 256 u M^2 in the power of the point (or 256 u M over the steepness on the patch), between tnear and tfar; or it records element 0 of the geometry with a distance x whose point lies on the surface up to these errors, within 28 u M (125 u M) of a parameter beyond tnear and not beyond tfar + 28 u M, with the surface's normal up to the errors of C88 and C90, and not farther than such a crossing by more than 56 u M (the margin for the patch). Origin, direction and tnear stay as they are. The sphere's occlusion callback marks only rays with a point of the surface, up to the error, between tnear and tfar, and marks every ray that enters the ball with the margin.", "quantifier": "all binary formats, spheres, patches, rays and records within the stated sizes", "why_tests_cant": "every float; the callbacks differ from the native tests in the second root and in the boundary cases of the patch, where errors decide", "anchors": ["blazert/embree/primitives/EmbreeSphere.h:83-188", "blazert/embree/primitives/EmbreePlane.h:128-212"]}
{"id": "C106", "title": "Nearest hits of Embree-backed scenes with rounding", "statement": "In binary floating point, let a float Embree scene hold spheres, patches and triangle meshes of moderate size M and be committed once. If Embree's triangle test is right up to an error e in distances, and its traversal leaves out only geometries whose bounds the ray does not meet before its end, then intersect1 with k callbacks, in any order, returns false with the record unchanged only if no shape is met with the margins of C105 more than w = 125 u M + e before the maximal distance; otherwise it records distance, element 0 and normal of a hit close to one of the shapes that is at most (1 + 2k) w farther than any shape met with the margin.", "quantifier": "all binary formats, float Embree scenes of spheres, patches and meshes, callback lists and rays within the stated sizes", "why_tests_cant": "every float and every order of callbacks; rounding can let later callbacks replace a slightly nearer hit", "anchors": ["blazert/embree/scene.h:102-143", "blazert/embree/primitives/EmbreeSphere.h:63-134", "blazert/embree/primitives/EmbreePlane.h:85-212"]}
{"id": "C107", "title": "Distances to spheres and patches with rounding", "statement": "In binary floating point with unit roundoff u, for a point within M of the center of the sphere (radius at most M) or patch (half sides at most M): the native and the Embree sphere's distance_to_surface are the same number, within 5 u M of the distance from the point to the surface. The native patch's is within 11 u M of the distance from the point to the patch if the point's foot is on the patch with a margin of 13 u M, and max() if it is beside it with that margin. Embree's plane returns the distance from the point to the patch.", "quantifier": "all binary formats, spheres, patches and points within the stated sizes", "why_tests_cant": "every float", "anchors": ["blazert/primitives/sphere.h:179-182", "blazert/primitives/plane.h:272-284", "blazert/embree/primitives/EmbreeSphere.h:30-33", "blazert/embree/primitives/EmbreePlane.h:36"]}
{"id": "C108", "title": "Embree's cylinder callback with rounding", "statement": "In binary floating point, under the size conditions of C101: from outside, with the margins of C101, the intersection callback leaves the record unchanged or records element 0 of the geometry with a distance whose point lies on the surface up to 2048 u (M/r)^2 radially and 256 u M along the axis, and the ray is not deep inside the cylinder before it; a ray that gets deep inside without passing close to a rim is recorded, in front of that point; from deep inside a hit is always recorded and the ray does not leave the cylinder before it. If M is at most 1/(4096 u), the recorded normal is in all these cases, up to 2048 u (M/r)^2 per component, the cap's outward axis or the tube's outward unit normal there, turned by the cylinder's matrix. Origin, direction and tnear are kept.", "quantifier": "all binary formats, cylinders, rotations and records within the size conditions", "why_tests_cant": "every float; tests use a few axis-aligned rays", "anchors": ["blazert/embree/primitives/EmbreeCylinder.h:98-380"]}
{"id": "C109", "title": "Embree's cylinder occlusion callback with rounding", "statement": "In binary floating point, under the size conditions of C101 and with its margins: from deep inside a cylinder the occlusion callback marks every ray by setting tfar to minus infinity; from outside or deep inside, a ray for which the intersection callback writes a hit is marked; a ray that starts clearly outside, gets deep inside and keeps away from the rims is marked; from beyond a cap a ray is marked only if one of its points lies on the surface up to the margins, and is otherwise left unchanged.", "quantifier": "all binary formats, cylinders, rotations and rays within the size conditions", "why_tests_cant": "every float; tests use a few axis-aligned rays", "anchors": ["blazert/embree/primitives/EmbreeCylinder.h:382-549"]}
{"id": "C110", "title": "Embree-backed scenes of one cylinder with rounding", "statement": "In binary floating point, under the size conditions and margins of C101, for an EmbreeScene<float> to which add_cylinders was called once before commit, however often Embree runs the intersection callback of that geometry: a query from outside either returns false and leaves the caller's record, or returns true with element 0 and a distance whose point lies on the surface of the first cylinder up to the error terms of C108, with the surface's normal there if M is at most 1/(4096 u), and the ray is not deep inside before it. If Embree runs the callback at least once, a ray that starts clearly outside, gets deep inside and keeps away from the rims is reported in front of that point, and from deep inside the query always returns true with the point where the ray leaves. If the matrix maps axes to axes and the center's coordinates are at most M, the box of the bounds callback holds all points deep inside; so the ray is also reported if Embree only leaves out geometries whose bounds the ray does not meet before its end. The ray's interval is not respected: there is a ray ending at 1/2 for which a hit at 1 is reported.", "quantifier": "all binary formats, cylinders, rotations, rays and callback sequences within the size conditions", "why_tests_cant": "every float and every callback sequence; tests use a few axis-aligned rays", "anchors": ["blazert/embree/scene.h:102-143", "blazert/embree/scene.h:292-316", "blazert/embree/primitives/EmbreeCylinder.h:56-96", "blazert/embree/primitives/EmbreeCylinder.h:98-380"]}
