-Q theories Verif
theories/Num.v
theories/Vec.v
theories/NumR.v
theories/NumX.v
theories/NumF.v
theories/Datatypes.v
theories/Ray.v
theories/Bvh.v
theories/Traverse.v
theories/SpecBvh.v
theories/PfBuild.v
theories/PfTree.v
theories/PfBuild2.v
theories/Sphere.v
theories/Plane.v
theories/TriDist.v
theories/Trimesh.v
theories/Cylinder.v
theories/CylDist.v
theories/Scene.v
theories/PfPart.v
theories/PfOrder.v
theories/PfNumbered.v
theories/CaseBuild.v
theories/PfDefined.v
theories/SpecStack.v
theories/PfStack.v
theories/PfTrav.v
theories/SpecTrav.v
theories/PfTrav2.v
theories/CaseChain.v
theories/SpecReal.v
theories/PfX.v
theories/PfSlab.v
theories/SpecNearest.v
theories/PfSlab2.v
theories/PfNearest.v
theories/PfNearest2.v
theories/PfDefined2.v
theories/PfNearest3.v
theories/SpecSphere.v
theories/PfSphere.v
theories/PfSphere2.v
theories/CaseNode.v
theories/CaseScale.v
theories/CaseSphere.v
theories/CaseStack.v
theories/CaseOutside.v
theories/CaseSphere2.v
theories/SpecPlane.v
theories/PfPlane.v
theories/PfPlane2.v
theories/CasePlane.v
theories/SpecTri.v
theories/PfTri.v
theories/PfTri2.v
theories/PfTri3.v
theories/CaseTri.v
theories/PfClosest.v
theories/SpecScene.v
theories/PfScene.v
theories/PfScene2.v
theories/PfScene3.v
theories/PfScene4.v
theories/PfScene5.v
theories/CaseScene.v
theories/SpecCyl.v
theories/PfCyl.v
theories/PfCyl2.v
theories/PfCyl3.v
theories/PfCyl4.v
theories/PfCyl5.v
theories/PfCyl6.v
theories/PfCyl7.v
theories/PfCylDist.v
theories/PfCylDist2.v
theories/CaseCyl.v
theories/CaseCyl2.v
theories/CaseCyl3.v
theories/SpecBins.v
theories/PfBins.v
theories/PfBins2.v
theories/CaseBins.v
theories/ProductSign.v
theories/SpecSign.v
theories/PfSign.v
theories/Embree.v
theories/SpecEmbree.v
theories/PfEmbree.v
theories/PfEmbree2.v
theories/PfEmbree3.v
theories/PfEmbree4.v
theories/EmbreeScene.v
theories/SpecEmbScene.v
theories/PfEmbScene.v
theories/CaseEmbree.v
theories/SpecEmbNear.v
theories/PfEmbNear.v
theories/CaseEmbNear.v
theories/PathTracer.v
theories/SpecOptics.v
theories/PfOptics.v
theories/SpecLight.v
theories/PfLight.v
theories/PfLight2.v
theories/SpecScatter.v
theories/PfScatter.v
theories/SpecShadow.v
theories/PfShadow.v
theories/DataExtra.v
theories/PfDataExtra.v
theories/PfSound.v
theories/SpecPath.v
theories/PfPath.v
theories/CasePath.v
theories/SpecIEEE.v
theories/SpecAny.v
theories/PfIEEE.v
theories/PfIEEE2.v
theories/PfIEEE3.v
theories/PfAny.v
theories/PfIEEE4.v
theories/PfReject.v
theories/CaseIEEE.v
theories/Image.v
theories/SpecImage.v
theories/PfImage.v
theories/PfImage2.v
theories/PfImage3.v
theories/CaseImage.v
theories/TinyObj.v
theories/ObjText.v
theories/SpecObj.v
theories/PfObj.v
theories/PfObj2.v
theories/PfObj3.v
theories/PfObj4.v
theories/PfObj5.v
theories/PfObj6.v
theories/SpecObjMesh.v
theories/PfObjMesh.v
theories/CaseObj.v
theories/Camera.v
theories/SpecCamera.v
theories/PfCamera.v
theories/SpecRender.v
theories/PfRender.v
theories/CaseCamera.v
theories/SpecCombine.v
theories/PfCombine.v
theories/CaseScene2.v
theories/CaseScene3.v
theories/SpecText.v
theories/PfText.v
theories/PfText2.v
theories/PfText3.v
theories/PfText4.v
theories/PfText5.v
theories/CaseText.v
theories/SpecTextF.v
theories/PfText6.v
theories/CaseTextF.v
theories/SpecTriF.v
theories/PfTriF.v
theories/PfTriF2.v
theories/PfTriF3.v
theories/PfLate.v
theories/PfTriF4.v
theories/PfDirF.v
theories/PfTriF5.v
theories/CaseTriF.v
theories/PfMeshF.v
theories/CaseMeshF.v
theories/ScenePic.v
theories/SpecPic.v
theories/PfPic.v
theories/PfPic2.v
theories/CasePic.v
theories/SpecSphF.v
theories/PfSphF.v
theories/PfSphF2.v
theories/PfSphF3.v
theories/PfSphN.v
theories/PfSphF4.v
theories/PfSphF5.v
theories/CaseSphF.v
theories/SpecPlaneF.v
theories/PfPlaneF.v
theories/PfPlaneF2.v
theories/PfPlaneF3.v
theories/PfPlaneF4.v
theories/PfPlaneF5.v
theories/PfPlaneF6.v
theories/PfPlaneF7.v
theories/PfPlaneF8.v
theories/PfPlaneF9.v
theories/CasePlaneF.v
theories/SpecSceneF.v
theories/PfSceneF.v
theories/CaseSceneF.v
theories/OriginSphere.v
theories/SpecOrigin.v
theories/PfOrigin.v
theories/PfOrigin2.v
theories/PfOrigin3.v
theories/PfOrigin4.v
theories/PfOrigin5.v
theories/PfOriginF.v
theories/CaseOrigin.v
theories/Mains.v
theories/SpecMain.v
theories/PfMain.v
theories/PfMain2.v
theories/CaseMain.v
theories/Print.v
theories/SpecJson.v
theories/SpecPrint.v
theories/PfJson.v
theories/PfPrint.v
theories/PfPrint2.v
theories/CasePrint.v
theories/PathMain.v
theories/SpecTracer.v
theories/PfTracer.v
theories/CaseTracer.v
theories/Zlib.v
theories/Png.v
theories/SpecZlib.v
theories/SpecPng.v
theories/PfBits.v
theories/PfZlib.v
theories/PfZlib2.v
theories/PfCrc.v
theories/PfPng.v
theories/PfPng2.v
theories/CasePng.v
theories/Suite.v
theories/SuiteSphere.v
theories/SuitePlane.v
theories/SuiteCylinder.v
theories/SuiteTrimesh.v
theories/SuiteNode.v
theories/SuiteESphere.v
theories/SuiteEPlane.v
theories/SuiteECylinder.v
theories/SuiteScene.v
theories/CaseSuite.v
theories/SpecTubeF.v
theories/PfTubeF.v
theories/PfTubeF2.v
theories/PfTubeF3.v
theories/PfTubeF4.v
theories/PfTubeF5.v
theories/PfTubeF6.v
theories/PfTubeF7.v
theories/PfTubeF8.v
theories/PfTubeF9.v
theories/PfTubeG.v
theories/CaseTubeF.v
theories/SpecTubeQ.v
theories/PfTubeQ.v
theories/PfTubeQ2.v
theories/PfTubeQ3.v
theories/CaseTubeQ.v
theories/SpecTubeN.v
theories/PfTubeN.v
theories/PfTubeN2.v
theories/CaseTubeN.v
theories/SpecMeshN.v
theories/PfMeshN.v
theories/PfMeshN2.v
theories/CaseMeshN.v
theories/SpecEmbF.v
theories/PfEmbreeF.v
theories/PfEmbreeF2.v
theories/CaseEmbF.v
theories/SpecDistF.v
theories/PfDistF.v
theories/CaseDistF.v
theories/PfECylF.v
theories/CaseECylF.v
theories/PfECylO.v
theories/CaseECylO.v
theories/SpecAxis.v
theories/PfESceneC.v
theories/PfESceneB.v
theories/CaseESceneC.v
theories/PropBuild.v
theories/PropDefined.v
theories/PropTrav.v
theories/PropSphere.v
theories/PropPlane.v
theories/PropTri.v
theories/PropScene.v
theories/PropCyl.v
theories/PropBins.v
theories/PropSign.v
theories/PropEmbree.v
theories/PropPath.v
theories/PropIEEE.v
theories/PropImage.v
theories/PropObj.v
theories/PropCamera.v
theories/PropText.v
theories/PropTextF.v
theories/PropTriF.v
theories/PropMeshF.v
theories/PropPic.v
theories/PropSphF.v
theories/PropPlaneF.v
theories/PropSceneF.v
theories/PropOrigin.v
theories/PropMain.v
theories/PropPrint.v
theories/PropTracer.v
theories/PropPng.v
theories/PropTubeF.v
theories/PropTubeQ.v
theories/PropTubeN.v
theories/PropMeshN.v
theories/PropEmbF.v
theories/PropDistF.v
theories/PropECylF.v
theories/PropECylO.v
theories/PropESceneC.v
