-Q theories Verif
theories/Base.v
theories/Text.v
theories/Biff.v
theories/Quantize.v
theories/Common.v
theories/Enums.v
theories/ItemBase.v
theories/ItemBall.v
theories/ItemBumper.v
theories/ItemDecal.v
theories/ItemFlasher.v
theories/ItemFlipper.v
theories/ItemGate.v
theories/ItemHitTarget.v
theories/ItemKicker.v
theories/ItemLight.v
theories/ItemLightSequencer.v
theories/ItemPartGroup.v
theories/ItemPlunger.v
theories/ItemPrimitive.v
theories/ItemRamp.v
theories/ItemReel.v
theories/ItemRubber.v
theories/ItemSpinner.v
theories/ItemTextBox.v
theories/ItemTimer.v
theories/ItemTrigger.v
theories/ItemWall.v
theories/BaseFacts.v
theories/TextFacts.v
theories/BiffFacts.v
theories/CommonFacts.v
theories/TermFacts.v
theories/QuantizeFacts.v
theories/EnumsFacts.v
theories/ItemBaseFacts.v
theories/ItemBallFacts.v
theories/ItemBumperFacts.v
theories/ItemDecalFacts.v
theories/ItemFlasherFacts.v
theories/ItemFlipperFacts.v
theories/ItemGateFacts.v
theories/ItemHitTargetFacts.v
theories/ItemKickerFacts.v
theories/ItemLightFacts.v
theories/ItemLightSequencerFacts.v
theories/ItemPartGroupFacts.v
theories/ItemPlungerFacts.v
theories/ItemPrimitiveFacts.v
theories/ItemRampFacts.v
theories/ItemReelFacts.v
theories/ItemRubberFacts.v
theories/ItemSpinnerFacts.v
theories/ItemTextBoxFacts.v
theories/ItemTimerFacts.v
theories/ItemTriggerFacts.v
theories/ItemWallFacts.v
theories/QuantizeMono.v
theories/GameItem.v
theories/GameItemBaseFacts.v
theories/GameItemFacts.v
theories/PropertiesEnums.v
theories/GameItemStored.v
theories/SpecBiff.v
theories/RecordFacts.v
theories/PropertiesBiff.v
theories/SpecItems.v
theories/ItemPieces.v
theories/ItemProps.v
theories/PropertiesItems.v
theories/StructBaseFacts.v
theories/GDBounds.v
theories/GDBoundsFacts.v
theories/GDDesktop.v
theories/GDDesktopFacts.v
theories/GDCabinet.v
theories/GDCabinetFacts.v
theories/GDPhysics.v
theories/GDPhysicsFacts.v
theories/GDScene.v
theories/GDSceneFacts.v
theories/StructMaterial.v
theories/StructMaterialFacts.v
theories/StructRenderProbe.v
theories/StructRenderProbeFacts.v
theories/Structs.v
theories/StructsFacts.v
theories/LegacyFacts.v
theories/GameData.v
theories/GameDataFacts.v
theories/SpecStructs.v
theories/StructsProps.v
theories/GameDataProps.v
theories/PropertiesStructs.v
theories/PropertiesGameData.v
theories/Image.v
theories/ImageFacts.v
theories/SpecImage.v
theories/ImageProps.v
theories/PropertiesImage.v
theories/Sound.v
theories/SpecSound.v
theories/SoundFacts.v
theories/PropertiesSound.v
theories/Cfb.v
theories/TableInfo.v
theories/Vpx.v
theories/CfbFacts.v
theories/SpecVpx.v
theories/TableInfoFacts.v
theories/MacFacts.v
theories/VpxFacts.v
theories/SpecTable.v
theories/TableFacts.v
theories/EditFacts.v
theories/OpsFacts.v
theories/VpxProps.v
theories/PropertiesVpx.v
theories/ColorText.v
theories/SpecColor.v
theories/ColorFacts.v
theories/PropertiesColor.v
theories/FileSystem.v
theories/SpecFileSystem.v
theories/FileSystemFacts.v
theories/PropertiesFileSystem.v
theories/Compact.v
theories/SpecCompact.v
theories/CompactFacts.v
theories/PropertiesCompact.v
theories/ExpandedItems.v
theories/SpecExpanded.v
theories/ExpandedItemsFacts.v
theories/PropertiesExpanded.v
theories/Compat.v
theories/SpecCompat.v
theories/PropertiesCompat.v
theories/JsonFloat.v
theories/SpecJson.v
theories/JsonFloatFacts.v
theories/PropertiesJson.v
theories/Mesh.v
theories/Gltf.v
theories/SpecMesh.v
theories/FlipFacts.v
theories/MeshFacts.v
theories/ObjFacts.v
theories/ObjRoundTrip.v
theories/PropertiesMesh.v
theories/ExpandedAssets.v
theories/SpecAssets.v
theories/AssetFacts.v
theories/PropertiesAssets.v
theories/Json.v
theories/SpecJsonRecords.v
theories/JsonFacts.v
theories/JsonItems.v
theories/SpecJsonItems.v
theories/JsonItemsFacts.v
theories/JsonGameItem.v
theories/SpecJsonGameItem.v
theories/JsonGameItemFacts.v
theories/JsonItemEdits.v
theories/PropertiesJsonItems.v
theories/JsonStructs.v
theories/SpecJsonStructs.v
theories/JsonStructsFacts.v
theories/JsonGameData.v
theories/SpecJsonGameData.v
theories/JsonGameDataFacts.v
theories/PropertiesJsonStructs.v
theories/Extract.v
theories/SpecExtract.v
theories/ExtractFacts.v
theories/ExampleToolbox.v
theories/PropertiesExtract.v
theories/ScalarFacts.v
theories/PropertiesScalars.v
theories/SpecGltf.v
theories/GltfFacts.v
theories/PropertiesGltf.v
theories/Browser.v
theories/SpecBrowser.v
theories/BrowserFacts.v
theories/PropertiesBrowser.v
theories/Builtin.v
theories/SpecBuiltin.v
theories/BuiltinFacts.v
theories/BuiltinReals.v
theories/PropertiesBuiltin.v
theories/Polygon.v
theories/SpecPolygon.v
theories/PolygonFacts.v
theories/PropertiesPolygon.v
theories/Smooth.v
theories/FloatBounds.v
theories/SmoothFacts.v
theories/SpecSmooth.v
theories/PropertiesSmooth.v
theories/SpecAccessors.v
theories/PropertiesAccessors.v
theories/Webp.v
theories/SpecWebp.v
theories/WebpFacts.v
theories/PropertiesWebp.v
theories/Walls.v
theories/SpecWalls.v
theories/WallsFacts.v
theories/WallsReals.v
theories/PropertiesWalls.v
theories/RubberMesh.v
theories/SpecRubber.v
theories/RubberFacts.v
theories/RubberReals.v
theories/PropertiesRubber.v
theories/Ramps.v
theories/SpecRamps.v
theories/RampFacts.v
theories/RampReals.v
theories/PropertiesRamps.v
theories/Transform.v
theories/TransformReals.v
theories/ObjExport.v
theories/SpecObjExport.v
theories/ObjExportFacts.v
theories/PropertiesObjExport.v
theories/Flats.v
theories/SpecFlats.v
theories/FlatReals.v
theories/PropertiesFlats.v
theories/SpecNormals.v
theories/NormalReals.v
theories/PropertiesNormals.v
theories/Plungers.v
theories/SpecPlungers.v
theories/PlungerFacts.v
theories/PlungerReals.v
theories/PropertiesPlungers.v
theories/PropertiesPlungersCases.v
theories/Shapes.v
theories/SpecShapes.v
theories/ShapeReals.v
theories/PropertiesShapes.v
theories/SpecWorld.v
theories/WorldReals.v
theories/PropertiesWorld.v
theories/SpecWires.v
theories/WireReals.v
theories/PropertiesWires.v
